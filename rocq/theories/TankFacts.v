(** Proofs of the theorems stated in PropsTank.v: Properties of the tank: mixing, draws, standby losses, adding heat *)

From Coq Require Import ZArith List Bool Reals Lra Lia.
From Verif Require Import Num FNum Base Units Utils Types TankM Spec SpecState.
From Verif Require Import RList FrameProofs MixProofs DrawProofs TankProofs StandbyProofs HeatProofs.
Import ListNotations.
Local Open Scope R_scope.
(** ** An example tank: 200 L, four nodes *)
Definition exTank (Ts : list R) : tank R :=
  {| t_volume := 200; t_Ts := Ts; t_stby := 0; t_mixesOnDraw := true; t_mixBelowFrac := 1 / 3;
     t_doMix := true; t_doCond := true; t_fixed := false;
     t_nodeVol := 200 / INR (length Ts); t_nodeCp := CPWATER * DENSITYWATER * (200 / INR (length Ts));
     t_nodeHeight := 3 / 10; t_fracTop := 9 / 100; t_fracSide := 82 / 100; t_UA := 7;
     t_inlet := 0; t_inlet2 := 2; t_hasHX := false; t_hxEff := 9 / 10; t_nodeHxEff := 1 / 2;
     t_outletT := 0; t_fitUA := 1 |}.
Lemma exTank_wf Ts : (0 < length Ts)%nat -> wf_tank (exTank Ts).
Proof. intros. constructor; cbn; auto. lra. Qed.

Lemma tankHeat_cp t : wf_tank t -> tankHeat t = t_nodeCp t * Rsum (t_Ts t).
Proof. intros H. unfold tankHeat. rewrite (wf_nodeCp _ H), (wf_nodeVol _ H). reflexivity. Qed.
Lemma tankHeat_set_Ts t Ts : length Ts = length (t_Ts t) -> wf_tank t ->
  tankHeat (set_t_Ts Ts t) = t_nodeCp t * Rsum Ts.
Proof. intros HL H. rewrite tankHeat_cp; auto. apply wf_set_Ts; auto. Qed.

Lemma C04_heat_content_is_stored_heat_fact : forall t, wf_tank t -> heatContent t = tankHeat t.
Proof. intros t H. rewrite tankHeat_cp by auto. apply heatContent_sum; auto. Qed.

Lemma C01_mixing_terminates_stratifies_conserves_fact : forall t fuel,
  wf_tank t -> t_doMix t = true -> (length (t_Ts t) * length (t_Ts t) < fuel)%nat ->
  exists t', mixInversions fuel t = (Ok tt, t') /\
    t' = set_t_Ts (t_Ts t') t /\ length (t_Ts t') = length (t_Ts t) /\
    stratified (t_Ts t') /\ tankHeat t' = tankHeat t /\ heatContent t' = heatContent t.
Proof.
  intros t fuel Hwf Hd Hf. destruct (mixInversions_terminates fuel t Hwf Hf) as [t' E].
  destruct (mixInversions_ok fuel t t' Hwf E) as [Ts' (H1 & H2 & H3)].
  exists t'. assert (HL := mo_len _ _ H2). assert (Hwf' : wf_tank t') by (rewrite H1; apply wf_set_Ts; auto).
  assert (Hh : tankHeat t' = tankHeat t).
  { rewrite H1, tankHeat_set_Ts, tankHeat_cp by auto. rewrite (mixed_of_sum _ _ H2). reflexivity. }
  splits; auto; try (rewrite H1; cbn; auto; fail).
  rewrite !heatContent_sum by auto. rewrite !tankHeat_cp in Hh by auto. exact Hh.
Qed.
Lemma C01_example_fact : wf_tank (exTank [50; 20; 60; 10]) /\ t_doMix (exTank [50; 20; 60; 10]) = true /\
  ~ stratified (t_Ts (exTank [50; 20; 60; 10])).
Proof.
  splits; [apply exTank_wf; cbn; lia|reflexivity|]. intros H. specialize (H 0%nat). cbn in H.
  assert (50 <= 20) by (apply H; lia). lra.
Qed.

Lemma C02_mixing_is_the_unique_isotonic_profile_fact : forall t fuel t',
  wf_tank t -> t_doMix t = true -> mixInversions fuel t = (Ok tt, t') ->
  isotonic_of (t_Ts t) (t_Ts t') /\
  (forall Ts, isotonic_of (t_Ts t) Ts -> Ts = t_Ts t').
Proof.
  intros t fuel t' Hwf Hd E. destruct (mixInversions_ok fuel t t' Hwf E) as [Ts' (H1 & H2 & H3)].
  assert (Hi : isotonic_of (t_Ts t) (t_Ts t')).
  { rewrite H1. cbn. apply mixed_isotonic; auto. }
  split; auto. intros Ts HTs. eapply isotonic_unique; eauto.
Qed.
Lemma C02_example_fact : exists t', mixInversions 17 (exTank [50; 20; 60; 10]) = (Ok tt, t').
Proof. apply mixInversions_terminates; [apply exTank_wf; cbn; lia|cbn; lia]. Qed.

Lemma C03_mixing_range_and_idempotence_fact : forall t fuel t',
  wf_tank t -> mixInversions fuel t = (Ok tt, t') ->
  (forall lo hi, within lo hi (t_Ts t) -> within lo hi (t_Ts t')) /\
  (stratified (t_Ts t) -> t' = t) /\
  (forall fuel', (0 < fuel')%nat -> mixInversions fuel' t' = (Ok tt, t')).
Proof.
  intros t fuel t' Hwf E. destruct (mixInversions_ok fuel t t' Hwf E) as [Ts' (H1 & H2 & H3)].
  assert (Hid : forall fuel' u, stratified (t_Ts u) -> mixInversions (S fuel') u = (Ok tt, u)).
  { intros fuel' u Hs. unfold mixInversions, bind, get, lift, modify, ret.
    destruct (t_doMix u); auto. rewrite mixLoop_strat by auto. destruct u; reflexivity. }
  splits.
  - intros lo hi Hw. rewrite H1. cbn. eapply mixed_of_within; eauto.
  - intros Hs. destruct fuel.
    + unfold mixInversions, bind, get, lift, modify, ret in E. destruct (t_doMix t); cbn in E; congruence.
    + rewrite Hid in E by auto. congruence.
  - intros [|fuel'] Hf; [lia|]. destruct (t_doMix t) eqn:Ed.
    + apply Hid. rewrite H1. cbn. auto.
    + unfold mixInversions, bind, get, lift, modify, ret. rewrite H1. cbn. rewrite Ed. reflexivity.
Qed.
Lemma C03_example_fact : wf_tank (exTank [10; 20; 20; 60]) /\ stratified (t_Ts (exTank [10; 20; 20; 60])) /\
  within 10 60 [50; 20; 60; 10].
Proof.
  splits; [apply exTank_wf; cbn; lia| |].
  - intros i Hi. cbn in Hi. destruct i as [|[|[|i]]]; cbn; try lra. lia.
  - intros x Hx. cbn in Hx. destruct Hx as [<-|[<-|[<-|[<-|[]]]]]; lra.
Qed.

Lemma C04_draw_conserves_energy_fact : forall fuel draw inT v2 inT2 t t',
  wf_tank t -> ports_ok t -> t_hasHX t = false -> 0 < draw ->
  drawPhase fuel draw inT v2 inT2 t = (Ok tt, t') ->
  sameTank t t' /\ v2 <= draw /\
  tankHeat t' = tankHeat t
    + CPWATER * DENSITYWATER * ((draw - v2) * inT + v2 * inT2)
    - CPWATER * DENSITYWATER * draw * t_outletT t'.
Proof.
  intros fuel draw inT v2 inT2 t t' Hwf Hp Hx Hd E.
  destruct (drawPhase_noHX _ _ _ _ _ _ _ Hwf Hp Hx Hd E) as (H1 & H2 & H3 & _).
  splits; auto. rewrite (tankHeat_cp t) by auto. rewrite <- H3. destruct H1 as [HL H1].
  assert (wf_tank t') by (rewrite H1; apply wf_set_outlet, wf_set_Ts; auto).
  rewrite tankHeat_cp by auto. f_equal. rewrite H1. reflexivity.
Qed.

Lemma C05_draw_stays_in_range_fact : forall fuel draw inT v2 inT2 t t' lo hi,
  wf_tank t -> ports_ok t -> t_hasHX t = false -> 0 < draw -> 0 <= v2 ->
  within lo hi (t_Ts t) -> (v2 < draw -> lo <= inT <= hi) -> (0 < v2 -> lo <= inT2 <= hi) ->
  drawPhase fuel draw inT v2 inT2 t = (Ok tt, t') ->
  within lo hi (t_Ts t') /\ lo <= t_outletT t' <= hi /\
  (t_doMix t = true -> stratified (t_Ts t) -> stratified (t_Ts t')).
Proof.
  intros fuel draw inT v2 inT2 t t' lo hi Hwf Hp Hx Hd Hv Hw R1 R2 E.
  destruct (drawPhase_noHX _ _ _ _ _ _ _ Hwf Hp Hx Hd E) as (H1 & H2 & H3 & H4 & H5).
  destruct (H4 lo hi) as [A B]; auto.
Qed.

Lemma C07_draw_terminates_fact : forall fuel draw inT v2 inT2 t,
  wf_tank t -> t_hasHX t = false -> v2 <= draw -> t_mixBelowFrac t <= 1 ->
  (length (t_Ts t) * length (t_Ts t) < fuel)%nat -> draw / t_nodeVol t <= INR fuel ->
  exists t', drawPhase fuel draw inT v2 inT2 t = (Ok tt, t').
Proof.
  intros fuel draw inT v2 inT2 t Hwf Hx Hv Hmf Hf Hd. unfold drawPhase. num_simpl.
  destruct (Rltb 0 draw) eqn:E1; bcase; [|unfold ret; eauto].
  destruct (Rltb draw v2) eqn:E2; bcase; [lra|].
  unfold bind at 1, get at 1. cbv beta iota. rewrite Hx.
  destruct (drawLoop_terminates (sortInlets t draw inT v2 inT2) fuel fuel (draw / t_nodeVol t) 0 t Hwf Hf Hd)
    as (e & t1 & El).
  destruct (t_Ts t) as [|x r] eqn:ET; [exfalso; pose proof (wf_n _ Hwf) as Hn; rewrite ET in Hn; cbn in Hn; lia|].
  unfold bind at 1. unfold bind at 1. rewrite El. unfold modify at 1, bind, get.
  assert (Hs : t_mixBelowFrac t1 = t_mixBelowFrac t /\ numNodes t1 = numNodes t).
  { pose proof (drawLoop_frame fuel fuel (sortInlets t draw inT v2 inT2) (draw / t_nodeVol t) 0 t) as [K1 K2].
    rewrite El in K1, K2. cbn in K1, K2. split; [rewrite K2; reflexivity|exact K1]. }
  destruct Hs as [Hs1 Hs2].
  change (numNodes (set_t_outletT (e / (CPWATER * DENSITYWATER * draw)) t1)) with (numNodes t1).
  cbn [set_t_outletT t_mixesOnDraw t_mixBelowFrac]. destruct (t_mixesOnDraw t1); [|unfold ret; eauto].
  rewrite Hs1, Hs2, nofN_R.
  destruct (Z.ltb _ _) eqn:Eb; [|eexists; reflexivity]. exfalso. apply Z.ltb_lt in Eb.
  assert (INR (numNodes t) * t_mixBelowFrac t <= INR (numNodes t)) by (pose proof (pos_INR (numNodes t)); nra).
  assert (Ht : IZR (Rtrunc (INR (numNodes t) * t_mixBelowFrac t)) <= INR (numNodes t)).
  { unfold Rtrunc. rcase.
    - assert (IZR (Rceil (INR (numNodes t) * t_mixBelowFrac t)) < 1).
      { pose proof (Rceil_spec (INR (numNodes t) * t_mixBelowFrac t)). lra. }
      assert (IZR (Rceil (INR (numNodes t) * t_mixBelowFrac t)) <= 0).
      { apply IZR_le. apply lt_IZR in H0. lia. }
      pose proof (pos_INR (numNodes t)). lra.
    - pose proof (Rfloor_spec (INR (numNodes t) * t_mixBelowFrac t)). lra. }
  rewrite INR_IZR_INZ in Ht. apply le_IZR in Ht. rewrite <- INR_IZR_INZ in Ht. lia.
Qed.
Lemma C07_example_fact : let t := exTank [10; 20; 20; 60] in
  wf_tank t /\ ports_ok t /\ t_hasHX t = false /\ t_mixBelowFrac t <= 1 /\ 400 / t_nodeVol t <= INR 17 /\
  exists t', drawPhase 17 400 10 5 15 t = (Ok tt, t').
Proof.
  cbv zeta. assert (W : wf_tank (exTank [10; 20; 20; 60])) by (apply exTank_wf; cbn; lia).
  splits; auto; cbn; try lra; try (unfold ports_ok; cbn; lia).
  apply C07_draw_terminates_fact; cbn; auto; try lra; try lia.
Qed.

Lemma C07_draw_float_never_ends_refuted_fact :
  forall (t : tank PrimFloat.float) fuel hours seconds draw inT amb vol2 inT2,
  t_hasHX t = false -> t_Ts t <> [] ->
  PrimFloat.ltb PrimFloat.zero draw = true -> PrimFloat.ltb draw vol2 = false ->
  PrimFloat.div draw (t_nodeVol t) = fofZ (2 ^ 54) ->
  fst (updateNodes fuel hours seconds draw inT amb vol2 inT2 t) = NoFuel.
Proof.
  intros t fuel hours seconds draw inT amb vol2 inT2 Hx HT Hd Hv Hq.
  assert (Hl : forall f mf (p : @inlets PrimFloat.float) e u,
    fst (drawLoop f mf p (fofZ (2 ^ 54)) e u) = NoFuel).
  { induction f; intros mf p e u.
    - reflexivity.
    - cbn [drawLoop].
      change (nltb (nofZ 0) (fofZ (2 ^ 54))) with true. cbv iota.
      change (if nltb (nofZ 1) (fofZ (2 ^ 54)) then nofZ 1 else fofZ (2 ^ 54))
        with (nofZ (T:=PrimFloat.float) 1).
      change (nsub (fofZ (2 ^ 54)) (nofZ 1)) with (fofZ (2 ^ 54)).
      unfold bind at 1, get at 1. cbv beta iota.
      destruct (drawIncr p (t_nodeCp u) (nofZ 1) (t_Ts u)) as [out Ts1].
      unfold bind at 1, modify at 1. cbv beta iota. unfold bind at 1.
      destruct (mixInversions mf (set_t_Ts Ts1 u)) as [[[]|?|?|] u2] eqn:Em; auto.
      + destruct (mixInversions_no_err mf (set_t_Ts Ts1 u)) as [[t' E]|E]; congruence.
      + destruct (mixInversions_no_err mf (set_t_Ts Ts1 u)) as [[t' E]|E]; congruence. }
  unfold updateNodes, bind at 1, drawPhase.
  change (nltb (nofZ 0) draw) with (PrimFloat.ltb PrimFloat.zero draw). rewrite Hd.
  change (nltb draw vol2) with (PrimFloat.ltb draw vol2). rewrite Hv.
  unfold bind at 1, get at 1. cbv beta iota. rewrite Hx.
  destruct (t_Ts t) as [|x r] eqn:E; [congruence|].
  unfold bind at 1. unfold bind at 1.
  change (ndiv draw (t_nodeVol t)) with (PrimFloat.div draw (t_nodeVol t)). rewrite Hq.
  match goal with |- context [drawLoop fuel fuel ?p ?v ?e t] => specialize (Hl fuel fuel p e t) end.
  match type of Hl with fst ?X = _ => destruct X as [o t1]; cbn in Hl; subst o end. reflexivity.
Qed.
Lemma C07_refuted_example_fact :
  let d := fofZ (2 ^ 54) in
  PrimFloat.ltb PrimFloat.zero d = true /\ PrimFloat.ltb d PrimFloat.zero = false /\ PrimFloat.div d PrimFloat.one = d.
Proof. vm_compute. auto. Qed.

Lemma C06_no_draw_no_change_fact : forall (T : Type) (N : Num T) fuel draw inT v2 inT2 (t : tank T),
  (nltb (nofZ 0) draw = false -> drawPhase fuel draw inT v2 inT2 t = (Ok tt, t)) /\
  (nltb (nofZ 0) draw = true -> nltb draw v2 = true ->
     exists msg, drawPhase fuel draw inT v2 inT2 t = (Err msg, t)).
Proof.
  intros T N fuel draw inT v2 inT2 t. unfold drawPhase. split.
  - intros ->. reflexivity.
  - intros -> ->. eexists. reflexivity.
Qed.
Lemma C06_example_fact : nltb (T:=PrimFloat.float) (nofZ 0) PrimFloat.nan = false /\
  nltb (T:=R) (nofZ 0) 5 = true /\ nltb (T:=R) 5 6 = true.
Proof. split; [reflexivity|]. cbn. split; apply Rltb_true; lra. Qed.

Lemma C08_hx_draw_fact : forall fuel draw inT v2 inT2 t t',
  wf_tank t -> t_hasHX t = true -> 0 < draw ->
  drawPhase fuel draw inT v2 inT2 t = (Ok tt, t') ->
  sameTank t t' /\
  tankHeat t - tankHeat t' = CPWATER * DENSITYWATER * draw * (t_outletT t' - inT) /\
  (forall lo hi, 0 <= t_nodeHxEff t <= 1 -> within lo hi (t_Ts t) -> lo <= inT <= hi ->
     lo <= t_outletT t' <= hi /\
     (t_nodeHxEff t * draw <= t_nodeVol t -> within lo hi (t_Ts t'))).
Proof.
  intros fuel draw inT v2 inT2 t t' Hwf Hx Hd E. unfold drawPhase in E. num_simpl.
  assert (C1 : Rltb 0 draw = true) by (apply Rltb_true; auto). rewrite C1 in E.
  destruct (Rltb draw v2) eqn:E2; [discriminate|].
  unfold bind at 1, get at 1 in E. cbv beta iota in E. rewrite Hx in E.
  destruct (hxDraw (CPWATER * DENSITYWATER * draw) (t_nodeCp t) (t_nodeHxEff t) (t_Ts t) inT) as [Ts' oT] eqn:Eh.
  unfold bind, modify, get in E. cbv beta iota in E. cbn [set_t_outletT set_t_Ts t_mixesOnDraw] in E.
  assert (HMIX : exists Ts'', t' = set_t_outletT oT (set_t_Ts Ts'' t) /\ length Ts'' = length Ts' /\ Rsum Ts'' = Rsum Ts' /\
            (forall lo hi, within lo hi Ts' -> within lo hi Ts'')).
  { destruct (t_mixesOnDraw t).
    - match type of E with context [if Z.ltb ?a ?b then _ else _] => destruct (Z.ltb a b) eqn:Eb; set (z := b) in * end; [discriminate|].
      apply Z.ltb_ge in Eb. unfold numNodes in Eb. cbn [set_t_outletT set_t_Ts t_Ts] in Eb.
      assert (Hbb : (0 <= Z.to_nat z <= length Ts')%nat) by lia. clearbody z.
      exists (mixNodes_list 0 (Z.to_nat z) (1 / 3) Ts'). splits.
      + injection E as <-. num_simpl. reflexivity.
      + apply mixNodes_length.
      + apply (mixNodes_sum 0 (Z.to_nat z)). exact Hbb.
      + intros lo hi. apply (mixNodes_within 0 (Z.to_nat z)); auto. lra.
    - exists Ts'. splits; auto. unfold ret in E. congruence. }
  destruct HMIX as (Ts2 & -> & L2 & S2 & W2). cbn [t_outletT t_Ts set_t_outletT set_t_Ts].
  pose proof (wf_nodeCp_pos _ Hwf) as Hcp. pose proof CP_pos. pose proof DENS_pos.
  assert (HC : 0 < CPWATER * DENSITYWATER) by (apply Rmult_lt_0_compat; auto).
  assert (HCd : 0 < CPWATER * DENSITYWATER * draw) by (apply Rmult_lt_0_compat; auto).
  destruct (hxDraw_spec _ _ (t_nodeHxEff t) (Rgt_not_eq _ _ HCd) (Rgt_not_eq _ _ Hcp) _ _ _ _ Eh) as [HL Hs].
  splits.
  - split; cbn; auto. congruence.
  - rewrite (tankHeat_cp t) by auto. unfold tankHeat. cbn [t_volume t_Ts set_t_outletT set_t_Ts].
    rewrite L2, S2, HL. rewrite <- (wf_nodeVol _ Hwf), <- (wf_nodeCp _ Hwf). exact Hs.
  - intros lo hi He Hw Hi.
    destruct (hxDraw_range _ _ _ lo hi HCd Hcp He _ _ _ _ Eh Hw Hi) as [A B]. split; auto.
    intros Hc. apply W2, B. rewrite (wf_nodeCp _ Hwf).
    replace (t_nodeHxEff t * (CPWATER * DENSITYWATER * draw)) with
      (CPWATER * DENSITYWATER * (t_nodeHxEff t * draw)) by ring.
    apply Rmult_le_compat_l; lra.
Qed.
Lemma C08_example_fact : let t := set_t_mixesOnDraw false (set_t_hasHX true (exTank [10; 20; 20; 60])) in
  wf_tank t /\ t_hasHX t = true /\ t_mixesOnDraw t = false /\ 0 <= t_nodeHxEff t <= 1 /\
  t_nodeHxEff t * 30 <= t_nodeVol t /\ exists t', drawPhase 5 30 12 0 0 t = (Ok tt, t').
Proof.
  cbv zeta. split.
  { destruct (exTank_wf [10; 20; 20; 60]) as [A B C D]; [cbn; lia|]. constructor; auto. }
  splits; cbn; try lra; auto.
  - unfold drawPhase. num_simpl.
    replace (Rltb 0 30) with true by (symmetry; apply Rltb_true; lra).
    replace (Rltb 30 0) with false by (symmetry; apply Rltb_false; lra).
    unfold bind, get. cbn [set_t_mixesOnDraw set_t_hasHX exTank t_hasHX t_nodeCp t_nodeHxEff t_Ts].
    destruct (hxDraw _ _ _ _ _). unfold modify, ret. cbn. eauto.
Qed.

Lemma C09_standby_accounting_fact : forall fuel hours seconds amb t t',
  wf_tank t -> standbyPhase fuel hours seconds amb t = (Ok tt, t') ->
  length (t_Ts t') = length (t_Ts t) /\
  t' = set_t_stby (t_stby t') (set_t_Ts (t_Ts t') t) /\
  tankHeat t' = tankHeat t - (t_stby t' - t_stby t) /\
  t_stby t' - t_stby t =
    hours * (t_UA t * t_fracTop t * ((node (t_Ts t) 0 - amb) + (node (t_Ts t) (length (t_Ts t) - 1) - amb)) +
             (t_UA t * t_fracSide t + t_fitUA t) *
               (Rsum (t_Ts t) / INR (length (t_Ts t)) - amb)).
Proof.
  intros fuel hours seconds amb t t' Hwf E.
  destruct (standbyPhase_ok _ _ _ _ _ _ Hwf E) as (Ts' & H1 & H2 & _ & _ & H5 & _).
  assert (HL : length Ts' = length (t_Ts t)).
  { rewrite (mo_len _ _ H2). apply afterStandby_length. }
  assert (HT : t_Ts t' = Ts') by (rewrite H1; reflexivity).
  splits.
  - rewrite HT; auto.
  - rewrite HT. exact H1.
  - rewrite (tankHeat_cp t) by auto. rewrite H5.
    assert (wf_tank t') by (rewrite H1; apply wf_set_stby, wf_set_Ts; auto).
    rewrite tankHeat_cp by auto. rewrite HT. replace (t_nodeCp t') with (t_nodeCp t) by (rewrite H1; reflexivity). lra.
  - rewrite H5. rewrite (mixed_of_sum _ _ H2).
    assert (Hcp := wf_nodeCp_pos _ Hwf). assert (Hn := wf_n _ Hwf).
    assert (Hs : t_nodeCp t * Rsum (afterStandby t hours amb (condTau t seconds) (t_doCond t)) =
                 t_nodeCp t * Rsum (standbyTs t hours amb)).
    { f_equal. unfold afterStandby. destruct (t_doCond t); auto.
      apply conduct_sum; auto. apply standbyTs_length. }
    rewrite Hs, (standbyTs_sum t hours amb) by (auto; lra).
    rewrite Rsum_map_bsum. unfold sideLoss, endLoss, numNodes. rewrite nofN_R. num_simpl.
    rewrite (bsum_ext _ (fun k => ((t_UA t * t_fracSide t + t_fitUA t) / INR (length (t_Ts t)) * hours) *
       node (t_Ts t) k - (t_UA t * t_fracSide t + t_fitUA t) / INR (length (t_Ts t)) * hours * amb)) by (intros; lra).
    rewrite bsum_minus, bsum_scal, bsum_const. rewrite <- Rsum_bsum.
    assert (0 < INR (length (t_Ts t))) by (apply lt_0_INR; auto). field. lra.
Qed.

Lemma C09_standby_succeeds_fact : forall fuel hours seconds amb t,
  wf_tank t -> (length (t_Ts t) * length (t_Ts t) < fuel)%nat ->
  (t_doCond t = true -> condTau t seconds <= 1) ->
  exists t', standbyPhase fuel hours seconds amb t = (Ok tt, t').
Proof.
  intros fuel hours seconds amb t Hwf Hf Hc. unfold standbyPhase, bind at 1, get at 1. cbv beta iota.
  destruct (t_Ts t) as [|x r] eqn:ET; [exfalso; pose proof (wf_n _ Hwf) as Hn; rewrite ET in Hn; cbn in Hn; lia|].
  rewrite <- ET in *. num_simpl.
  replace (t_doCond t && Rltb 1 (condTau t seconds))%bool with false.
  2:{ destruct (t_doCond t); auto. cbn [andb]. symmetry. apply Rltb_false. auto. }
  unfold bind, modify. apply mixInversions_terminates.
  - apply wf_set_stby, wf_set_Ts; auto. destruct (t_doCond t).
    + apply conduct_length; apply standbyTs_length.
    + apply standbyTs_length.
  - cbn. replace (length _) with (length (t_Ts t)); auto. destruct (t_doCond t).
    + symmetry. apply conduct_length; apply standbyTs_length.
    + symmetry. apply standbyTs_length.
Qed.
Lemma condTau_exTank : condTau (exTank [10; 20; 20; 60]) 60 <= 1 / 100.
Proof. unfold condTau, KWATER, CPWATER, DENSITYWATER, dec. cbn. lra. Qed.
Lemma C09_example_fact : let t := exTank [10; 20; 20; 60] in
  wf_tank t /\ exists t', standbyPhase 17 (1/60) 60 20 t = (Ok tt, t').
Proof.
  cbv zeta. assert (W : wf_tank (exTank [10; 20; 20; 60])) by (apply exTank_wf; cbn; lia).
  split; auto. apply C09_standby_succeeds_fact; auto; try (cbn; lia). intros _. pose proof condTau_exTank. lra.
Qed.

Lemma C10_standby_range_fact : forall fuel hours seconds amb t t' lo hi,
  wf_tank t -> stratified (t_Ts t) -> within lo hi (t_Ts t) -> lo <= amb <= hi ->
  0 <= hours -> 0 <= seconds -> 0 <= t_UA t -> 0 <= t_fitUA t -> 0 <= t_fracTop t -> 0 <= t_fracSide t ->
  t_nodeHeight t <> 0 ->
  (forall ends : R, ends = (if Nat.eqb (length (t_Ts t)) 1 then 2 else 1) ->
     hours * (ends * (t_UA t * t_fracTop t) + (t_UA t * t_fracSide t + t_fitUA t) / INR (length (t_Ts t)))
       / t_nodeCp t + (if (t_doMix t || negb (t_doCond t))%bool then 0 else condTau t seconds) <= 1) ->
  standbyPhase fuel hours seconds amb t = (Ok tt, t') ->
  within lo hi (t_Ts t').
Proof.
  intros fuel hours seconds amb t t' lo hi Hwf Hs Hw Ha Hh Hsec HUA HfUA Hft Hfs Hnh Hlim E.
  specialize (Hlim _ eq_refl).
  destruct (standbyPhase_ok _ _ _ _ _ _ Hwf E) as (Ts' & H1 & H2 & H3 & H4 & _).
  assert (HT : t_Ts t' = Ts') by (rewrite H1; reflexivity). rewrite HT.
  assert (Hcp := wf_nodeCp_pos _ Hwf). assert (Hn := wf_n _ Hwf).
  assert (HnR : 0 < INR (length (t_Ts t))) by (apply lt_0_INR; auto).
  set (n := length (t_Ts t)) in *.
  assert (Hend : 0 <= alphaEnd t hours).
  { unfold alphaEnd. apply Rmult_le_pos; [|left; apply Rinv_0_lt_compat; auto]. apply Rmult_le_pos; auto. nra. }
  assert (Hside : 0 <= alphaSide t hours).
  { unfold alphaSide. fold n. apply Rmult_le_pos; [|left; apply Rinv_0_lt_compat; auto].
    apply Rmult_le_pos; auto. apply Rmult_le_pos; [nra|left; apply Rinv_0_lt_compat; auto]. }
  assert (Hal : forall k, 0 <= alpha t hours k).
  { intros k. unfold alpha. destruct (Nat.eqb k 0); destruct (Nat.eqb k _); lra. }
  assert (Hsum : forall k, (k < n)%nat -> alpha t hours k <=
     hours * ((if Nat.eqb n 1 then 2 else 1) * (t_UA t * t_fracTop t) + (t_UA t * t_fracSide t + t_fitUA t) / INR n)
       / t_nodeCp t).
  { intros k Hk.
    replace (hours * ((if Nat.eqb n 1 then 2 else 1) * (t_UA t * t_fracTop t) + (t_UA t * t_fracSide t + t_fitUA t) / INR n)
       / t_nodeCp t) with ((if Nat.eqb n 1 then 2 else 1) * alphaEnd t hours + alphaSide t hours)
      by (unfold alphaEnd, alphaSide; fold n; field; lra).
    unfold alpha. fold n. destruct (Nat.eqb n 1) eqn:En.
    - destruct (Nat.eqb k 0); destruct (Nat.eqb k (n - 1)); lra.
    - apply Nat.eqb_neq in En. destruct (Nat.eqb k 0) eqn:E0; destruct (Nat.eqb k (n - 1)) eqn:E1; try lra.
      apply Nat.eqb_eq in E0; apply Nat.eqb_eq in E1. lia. }
  assert (Htau : 0 <= condTau t seconds).
  { unfold condTau. num_simpl. apply Rmult_le_pos; auto. apply Rmult_le_pos.
    - unfold KWATER, dec; num_simpl; lra.
    - left. apply Rinv_0_lt_compat. pose proof CP_pos. pose proof DENS_pos.
      assert (0 < t_nodeHeight t * t_nodeHeight t) by nra.
      apply Rmult_lt_0_compat; auto. apply Rmult_lt_0_compat; lra. }
  destruct (t_doMix t) eqn:Ed.
  - cbn [orb] in Hlim.
    apply (afterStandby_mixed_range t hours amb ltac:(exact Hn) ltac:(lra) (condTau t seconds) lo hi Hs ltac:(assumption) Ha Htau
             ltac:(intros; apply Hal) (t_doCond t)); auto.
    intros k Hk. specialize (Hsum k Hk). lra.
  - rewrite H4 by auto. cbn [orb] in Hlim.
    apply (afterStandby_range t hours amb ltac:(exact Hn) ltac:(lra) (condTau t seconds) lo hi Hs ltac:(assumption) Ha Htau
             ltac:(intros; apply Hal) (t_doCond t)).
    intros k Hk. fold n. specialize (Hsum k Hk). destruct (t_doCond t); cbn [negb] in Hlim; [|lra].
    destruct (Nat.ltb 1 n); lra.
Qed.
Lemma C10_example_fact : let t := exTank [10; 20; 20; 60] in
  wf_tank t /\ stratified (t_Ts t) /\ within 10 60 (t_Ts t) /\ t_nodeHeight t <> 0 /\
  (1/60) * (1 * (t_UA t * t_fracTop t) + (t_UA t * t_fracSide t + t_fitUA t) / INR (length (t_Ts t))) / t_nodeCp t <= 1 /\
  exists t', standbyPhase 17 (1/60) 60 20 t = (Ok tt, t').
Proof.
  cbv zeta. destruct C09_example_fact as [W E]. splits; auto; try (cbn; lra).
  - intros i Hi. cbn in Hi. destruct i as [|[|[|i]]]; cbn; try lra. lia.
  - intros x Hx. cbn in Hx. destruct Hx as [<-|[<-|[<-|[<-|[]]]]]; lra.
Qed.

Lemma C10_standby_range_refuted_fact : exists t t',
  wf_tank t /\ stratified (t_Ts t) /\ within 10 20 (t_Ts t) /\ 0 <= t_UA t /\ 0 <= t_fitUA t /\
  0 <= t_fracTop t /\ 0 <= t_fracSide t /\ 2 * t_fracTop t + t_fracSide t = 1 /\
  t_doCond t = true /\ t_doMix t = true /\
  standbyPhase 5 1 3600 10 t = (Ok tt, t') /\ t_Ts t' = [0].
Proof.
  set (t := set_t_UA (2 * (CPWATER * DENSITYWATER * (200 / INR 1))) (set_t_fitUA 0 (exTank [20]))).
  assert (W : wf_tank t).
  { destruct (exTank_wf [20]) as [A B C D]; [cbn; lia|]. constructor; auto. }
  destruct (C09_standby_succeeds_fact 5 1 3600 10 t W) as [t' E].
  - cbn. lia.
  - intros _. unfold condTau, KWATER, CPWATER, DENSITYWATER, dec. cbn. lra.
  - destruct (C09_standby_accounting_fact 5 1 3600 10 t t' W E) as (H1 & H2 & H3 & H4).
    exists t, t'. splits; auto; cbn; try lra.
    + intros i Hi. cbn in Hi. lia.
    + intros x Hx. cbn in Hx. destruct Hx as [<-|[]]; lra.
    + change (length (t_Ts t)) with 1%nat in *.
      destruct (t_Ts t') as [|x [|y r]] eqn:ET; cbn in H1; try lia. f_equal.
      rewrite H4 in H3. unfold tankHeat in H3. rewrite ET in H3.
      assert (HV : t_volume t' = 200) by (rewrite H2; reflexivity). rewrite HV in H3.
      cbn in H3. pose proof CP_pos. pose proof DENS_pos. unfold CPWATER, DENSITYWATER, dec in H3. cbn in H3. lra.
Qed.

Lemma C11_bottom_mixing_fact : forall bot below f Ts,
  (bot <= below <= length Ts)%nat -> 0 <= f <= 1 ->
  let Ts' := mixNodes_list bot below f Ts in
  length Ts' = length Ts /\ Rsum Ts' = Rsum Ts /\
  (forall lo hi, (forall j, (bot <= j < below)%nat -> lo <= node Ts j <= hi) ->
     forall k, (bot <= k < below)%nat -> lo <= node Ts' k <= hi) /\
  (forall k, (k < length Ts)%nat -> ~ (bot <= k < below)%nat -> node Ts' k = node Ts k) /\
  (stratified Ts -> stratified Ts') /\
  (f = 1 -> forall j k, (bot <= j < below)%nat -> (bot <= k < below)%nat -> node Ts' j = node Ts' k).
Proof.
  intros bot bel f Ts Hb Hf Ts'. splits.
  - apply mixNodes_length.
  - apply mixNodes_sum; auto.
  - intros lo hi Hr k Hk. apply (mixNodes_range bot bel f Ts Hb Hf); auto.
  - intros k Hk Hn. apply mixNodes_out; auto.
  - intros Hs. apply (mixNodes_strat bot bel f Ts Hb Hf); auto.
  - intros -> j k Hj Hk. unfold Ts'. rewrite !(mixNodes_node bot bel 1 Ts Hb) by lia.
    replace (Nat.leb bot j) with true by (symmetry; apply Nat.leb_le; lia).
    replace (Nat.ltb j bel) with true by (symmetry; apply Nat.ltb_lt; lia).
    replace (Nat.leb bot k) with true by (symmetry; apply Nat.leb_le; lia).
    replace (Nat.ltb k bel) with true by (symmetry; apply Nat.ltb_lt; lia). cbn [andb]. lra.
Qed.
Lemma C11_example_fact : (0 <= 2 <= length [10; 20; 20; 60])%nat /\ 0 <= 1 / 3 <= 1 /\
  node (mixNodes_list 0 2 (1 / 3) [10; 20; 20; 60]) 0 <> 10.
Proof.
  splits; try (cbn; lia); try lra. rewrite (mixNodes_node 0 2 (1/3) [10;20;20;60]) by (cbn; lia). cbn. lra.
Qed.

Lemma C12_add_heat_fact : forall q nd maxT t,
  wf_tank t -> (nd < length (t_Ts t))%nat -> 0 <= q -> stratified_from nd (t_Ts t) ->
  exists q' t', addHeatAboveNode q nd maxT t = (Ok q', t') /\
    0 <= q' <= q /\
    tankHeat t' = tankHeat t + (q - q') /\
    t' = set_t_Ts (t_Ts t') t /\ length (t_Ts t') = length (t_Ts t) /\
    (forall j, (j < length (t_Ts t))%nat ->
       node (t_Ts t) j <= node (t_Ts t') j <= Rmax (node (t_Ts t) j) maxT) /\
    (forall j, (j < nd)%nat -> node (t_Ts t') j = node (t_Ts t) j) /\
    stratified_from nd (t_Ts t') /\ (stratified (t_Ts t) -> stratified (t_Ts t')).
Proof.
  intros q nd maxT t Hwf Hnd Hq Hs. unfold addHeatAboveNode, bind, get.
  destruct (addHeatAboveNode_list (t_nodeCp t) q nd maxT (t_Ts t)) as [q' Ts'] eqn:E.
  unfold modify, ret. exists q', (set_t_Ts Ts' t).
  destruct (addHeatAboveNode_spec _ maxT nd (wf_nodeCp_pos _ Hwf) q (t_Ts t) q' Ts' Hnd Hq Hs E)
    as (H1 & H2 & [L [[F1 F2] HL]] & H4).
  assert (Hlow : forall j, (j < nd)%nat -> node Ts' j = node (t_Ts t) j).
  { intros j Hj. rewrite F2 by lia. replace (Nat.leb nd j) with false by (symmetry; apply Nat.leb_gt; lia). reflexivity. }
  assert (Hge : forall j, (j < length (t_Ts t))%nat -> node (t_Ts t) j <= node Ts' j).
  { intros j Hj. rewrite F2 by auto. destruct (Nat.leb nd j); [apply Rmax_l|lra]. }
  splits; auto; cbn [set_t_Ts t_Ts]; try lra.
  - rewrite tankHeat_set_Ts, tankHeat_cp by auto. exact H2.
  - intros j Hj. split; auto. rewrite F2 by auto. destruct (Nat.leb nd j) eqn:Ej; [|apply Rmax_l].
    apply Nat.leb_le in Ej. destruct HL as [HL|HL].
    + apply Rmax_lub; [apply Rmax_l|]. eapply Rle_trans; [exact HL|apply Rmax_r].
    + assert (node (t_Ts t) nd <= node (t_Ts t) j) by (apply (stratified_from_le nd); auto; lia).
      rewrite Rmax_left by lra. apply Rmax_l.
  - eapply filled_strat; eauto. split; auto.
  - intros Hst i Hi. rewrite F1 in Hi. destruct (le_lt_dec nd i) as [Hni|Hni].
    + apply (filled_strat nd L (t_Ts t)); auto; [split; auto|lia].
    + rewrite (Hlow i) by lia. specialize (Hst i Hi). specialize (Hge (S i) Hi). lra.
Qed.
Lemma strat_ex : stratified [10; 20; 20; 60].
Proof. intros i Hi. cbn in Hi. destruct i as [|[|[|i]]]; cbn; try lra. lia. Qed.
Lemma strat_strat_from lo Ts : stratified Ts -> stratified_from lo Ts.
Proof. intros H i _ Hi. apply H; auto. Qed.
Lemma C12_example_fact : let t := exTank [10; 20; 20; 60] in
  wf_tank t /\ (1 < length (t_Ts t))%nat /\ 0 <= 5000 /\ stratified_from 1 (t_Ts t).
Proof. cbv zeta. splits; [apply exTank_wf; cbn; lia|cbn; lia|lra|apply strat_strat_from, strat_ex]. Qed.

Lemma C13_add_heat_fills_like_water_fact : forall q nd maxT t q' t',
  wf_tank t -> (nd < length (t_Ts t))%nat -> 0 <= q -> stratified_from nd (t_Ts t) ->
  addHeatAboveNode q nd maxT t = (Ok q', t') ->
  (exists L, filled nd L (t_Ts t) (t_Ts t') /\
     ((exists j, (nd <= j < length (t_Ts t))%nat /\ node (t_Ts t) j < node (t_Ts t') j) -> L <= maxT)) /\
  (0 < q' -> forall j, (nd <= j < length (t_Ts t))%nat -> maxT <= node (t_Ts t') j).
Proof.
  intros q nd maxT t q' t' Hwf Hnd Hq Hs E. unfold addHeatAboveNode, bind, get in E.
  destruct (addHeatAboveNode_list (t_nodeCp t) q nd maxT (t_Ts t)) as [q1 Ts'] eqn:Ea.
  unfold modify, ret in E. injection E as <- <-.
  destruct (addHeatAboveNode_spec _ maxT nd (wf_nodeCp_pos _ Hwf) q (t_Ts t) q1 Ts' Hnd Hq Hs Ea)
    as (H1 & H2 & [L [HF HL]] & H4). cbn [set_t_Ts t_Ts].
  split.
  - exists L. split; auto. intros [j [Hj Hlt]]. destruct HL as [HL|HL]; auto. exfalso.
    rewrite (proj2 HF) in Hlt by lia. replace (Nat.leb nd j) with true in Hlt by (symmetry; apply Nat.leb_le; lia).
    assert (node (t_Ts t) nd <= node (t_Ts t) j) by (apply (stratified_from_le nd); auto; lia).
    rewrite Rmax_left in Hlt by lra. lra.
  - intros Hq' j Hj. eapply Rle_trans; [apply H4; auto|].
    apply (stratified_from_le nd); try lia; [eapply filled_strat; eauto|rewrite (proj1 HF); lia].
Qed.

Lemma C13_water_filling_unique_fact : forall nd Ts A B L1 L2,
  filled nd L1 Ts A -> filled nd L2 Ts B -> Rsum A = Rsum B -> A = B.
Proof.
  assert (Hgo : forall nd Ts A B L1 L2, filled nd L1 Ts A -> filled nd L2 Ts B -> L1 <= L2 -> Rsum A = Rsum B -> A = B).
  { intros nd Ts A B L1 L2 [A1 A2] [B1 B2] HL HS. apply list_eq_node; [lia|].
    assert (Hle : forall j, (j < length Ts)%nat -> node A j <= node B j).
    { intros j Hj. rewrite A2, B2 by auto. destruct (Nat.leb nd j); [|lra].
      apply Rmax_lub; [apply Rmax_l|]. eapply Rle_trans; [exact HL|apply Rmax_r]. }
    intros k Hk. rewrite A1 in Hk. apply Rle_antisym; auto. apply Rnot_lt_le. intros Hlt.
    rewrite !Rsum_bsum, A1, B1 in HS.
    assert (bsum (fun j => node B j - node A j) (length Ts) = 0) by (rewrite bsum_minus; lra).
    assert (node B k - node A k <= bsum (fun j => node B j - node A j) (length Ts)).
    { apply (bsum_ge_elem (fun j => node B j - node A j)); auto. intros j Hj. specialize (Hle j Hj). lra. }
    lra. }
  intros nd Ts A B L1 L2 HA HB HS. destruct (Rle_lt_dec L1 L2).
  - eapply Hgo; eauto.
  - symmetry. eapply Hgo; [exact HB|exact HA|lra|auto].
Qed.

Lemma C14_add_heat_inverted_refuted_fact : exists cp q nd maxT Ts,
  0 < cp /\ 0 <= q /\ (nd < length Ts)%nat /\
  let '(q', Ts') := addHeatAboveNode_list cp q nd maxT Ts in
  q' = 0 /\ cp * Rsum Ts' = cp * Rsum Ts + 40 /\ q = 10.
Proof.
  exists 1, 10, 0%nat, 60, [50; 20]. splits; try lra; try (cbn; lia).
  unfold addHeatAboveNode_list. cbn [skipn equalRun]. unfold nneqb. num_simpl.
  replace (Reqb' 50 20) with false by (symmetry; apply Reqb'_false; lra). cbn [negb length Nat.add Nat.sub].
  cbn [addHeatLoop]. num_simpl. unfold nofN. cbn [Z.of_nat Pos.of_succ_nat nget nth length Nat.sub Nat.add Nat.ltb Nat.leb Pos.succ fillN]. num_simpl.
  rdec. splits; lra.
Qed.
