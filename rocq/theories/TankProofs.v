(** Proofs about the draw phase, bottom mixing, heat-exchanger draws, standby losses and conduction. *)

From Coq Require Import ZArith List Bool Reals Lra Lia.
From Verif Require Import Num Base Units Utils Types TankM Spec SpecState RList MixProofs DrawProofs.
Import ListNotations.
Local Open Scope R_scope.

(** ** mixNodes *)
Section MixNodes.
  Variables (bot bel : nat) (f : R) (Ts : list R).
  Hypothesis Hb : (bot <= bel <= length Ts)%nat.
  Let avg : R := bsum (fun k => node Ts (bot + k)) (bel - bot) / INR (bel - bot).

  Lemma mixNodes_node k : (k < length Ts)%nat -> node (mixNodes_list bot bel f Ts) k =
    if (Nat.leb bot k && Nat.ltb k bel)%bool then node Ts k + f * (avg - node Ts k) else node Ts k.
  Proof.
    intros Hk. unfold mixNodes_list. rewrite node_mapi by auto. rewrite nsum_Rsum, Rsum_window by lia.
    rewrite nofN_R. num_simpl. reflexivity.
  Qed.
  Lemma mixNodes_length : length (mixNodes_list bot bel f Ts) = length Ts.
  Proof. apply mapi_length. Qed.
  Lemma mixNodes_sum : Rsum (mixNodes_list bot bel f Ts) = Rsum Ts.
  Proof.
    rewrite !Rsum_bsum, mixNodes_length.
    rewrite (bsum_ext _ (fun k => if (Nat.leb bot k && Nat.ltb k (bot + (bel - bot)))%bool
              then node Ts k + f * (avg - node Ts k) else node Ts k)).
    2:{ intros k Hk. replace (bot + (bel - bot))%nat with bel by lia. apply mixNodes_node; auto. }
    rewrite bsum_window by lia.
    rewrite bsum_plus, bsum_scal, bsum_minus, bsum_const.
    destruct (Nat.eq_dec (bel - bot) 0) as [->|Hne]; [cbn; lra|].
    assert (0 < INR (bel - bot)) by (apply lt_0_INR; lia).
    replace (INR (bel - bot) * avg) with (bsum (fun k => node Ts (bot + k)) (bel - bot)).
    - lra.
    - unfold avg. field. lra.
  Qed.
  Hypothesis Hf : 0 <= f <= 1.
  Lemma avg_bounds lo hi : (bot < bel)%nat -> (forall k, (bot <= k < bel)%nat -> lo <= node Ts k <= hi) ->
    lo <= avg <= hi.
  Proof.
    intros Hlt Hr. assert (Hp : 0 < INR (bel - bot)) by (apply lt_0_INR; lia).
    assert (INR (bel - bot) * lo <= bsum (fun k => node Ts (bot + k)) (bel - bot) <= INR (bel - bot) * hi).
    { rewrite <- !bsum_const. split; apply bsum_le; intros; apply Hr; lia. }
    unfold avg. split.
    - apply (Rmult_le_reg_r (INR (bel - bot))); auto. unfold Rdiv. rewrite Rmult_assoc, Rinv_l by lra. lra.
    - apply (Rmult_le_reg_r (INR (bel - bot))); auto. unfold Rdiv. rewrite Rmult_assoc, Rinv_l by lra. lra.
  Qed.
  Lemma mixNodes_range lo hi k : (forall j, (bot <= j < bel)%nat -> lo <= node Ts j <= hi) ->
    (bot <= k < bel)%nat -> lo <= node (mixNodes_list bot bel f Ts) k <= hi.
  Proof.
    intros Hr Hk. rewrite mixNodes_node by lia.
    replace (Nat.leb bot k) with true by (symmetry; apply Nat.leb_le; lia).
    replace (Nat.ltb k bel) with true by (symmetry; apply Nat.ltb_lt; lia). cbn [andb].
    assert (Ha := avg_bounds lo hi ltac:(lia) Hr). assert (Hx := Hr k Hk). nra.
  Qed.
  Lemma mixNodes_out k : (k < length Ts)%nat -> ~ (bot <= k < bel)%nat ->
    node (mixNodes_list bot bel f Ts) k = node Ts k.
  Proof.
    intros Hk Ho. rewrite mixNodes_node by lia.
    destruct (Nat.leb bot k) eqn:E1; destruct (Nat.ltb k bel) eqn:E2; auto.
    apply Nat.leb_le in E1. apply Nat.ltb_lt in E2. lia.
  Qed.
  Lemma mixNodes_strat : stratified Ts -> stratified (mixNodes_list bot bel f Ts).
  Proof.
    intros Hs i Hi. rewrite mixNodes_length in Hi.
    assert (Hss := Hs i Hi).
    destruct (le_lt_dec bot (S i)) as [H1|H1].
    - destruct (le_lt_dec (S bel) (S i)) as [H2|H2].
      + rewrite !mixNodes_out by lia. auto.
      + destruct (Nat.eq_dec (S i) bot) as [He|Hne].
        * rewrite (mixNodes_out i) by lia.
          destruct (Nat.eq_dec bot bel); [rewrite mixNodes_out by lia; auto|].
          destruct (mixNodes_range (node Ts bot) (node Ts (bel - 1)) (S i)); [|lia|].
          -- intros j Hj. split; apply stratified_le; auto; lia.
          -- replace (node Ts bot) with (node Ts (S i)) in H by (f_equal; lia). lra.
        * destruct (Nat.eq_dec (S i) bel) as [He|Hne2].
          -- rewrite (mixNodes_out (S i)) by lia.
             destruct (mixNodes_range (node Ts bot) (node Ts (bel - 1)) i); [|lia|].
             ++ intros j Hj. split; apply stratified_le; auto; lia.
             ++ replace (bel - 1)%nat with i in H0 by lia. lra.
          -- rewrite !mixNodes_node by lia.
             replace (Nat.leb bot i) with true by (symmetry; apply Nat.leb_le; lia).
             replace (Nat.ltb i bel) with true by (symmetry; apply Nat.ltb_lt; lia).
             replace (Nat.leb bot (S i)) with true by (symmetry; apply Nat.leb_le; lia).
             replace (Nat.ltb (S i) bel) with true by (symmetry; apply Nat.ltb_lt; lia). cbn [andb].
             nra.
    - rewrite !mixNodes_out by lia. auto.
  Qed.
  Lemma mixNodes_within lo hi : within lo hi Ts -> within lo hi (mixNodes_list bot bel f Ts).
  Proof.
    rewrite !within_node, mixNodes_length. intros Hw k Hk.
    destruct (le_lt_dec bot k); [|rewrite mixNodes_out by lia; auto].
    destruct (le_lt_dec bel k); [rewrite mixNodes_out by lia; auto|].
    apply mixNodes_range; [|lia]. intros; apply Hw; lia.
  Qed.
End MixNodes.

(** ** Draw phase without heat exchanger *)
Lemma sortInlets_ok t draw inT v2 inT2 : inlets_ok (length (t_Ts t)) (sortInlets t draw inT v2 inT2) <->
  (0 <= t_inlet t < Z.of_nat (length (t_Ts t)))%Z /\ (0 <= t_inlet2 t < Z.of_nat (length (t_Ts t)))%Z.
Proof. unfold sortInlets, inlets_ok. destruct (Z.ltb _ _); cbn; tauto. Qed.
Lemma sortInlets_heat (t : tank R) draw inT v2 inT2 :
  let p := sortInlets t draw inT v2 inT2 in
  i_hiF p * i_hiT p + i_loF p * i_loT p = (1 - v2 / draw) * inT + v2 / draw * inT2.
Proof. unfold sortInlets. destruct (Z.ltb _ _); cbn; num_simpl; lra. Qed.
Lemma sortInlets_range t draw inT v2 inT2 lo hi : 0 < draw -> 0 <= v2 <= draw ->
  (v2 < draw -> lo <= inT <= hi) -> (0 < v2 -> lo <= inT2 <= hi) ->
  inlets_range lo hi (sortInlets t draw inT v2 inT2).
Proof.
  intros Hd Hv H1 H2.
  assert (Hq : 0 <= v2 / draw <= 1).
  { split; [apply Rmult_le_pos; [lra|left; apply Rinv_0_lt_compat; lra]|].
    apply (Rmult_le_reg_r draw); auto. unfold Rdiv. rewrite Rmult_assoc, Rinv_l by lra. lra. }
  assert (A1 : 1 - v2 / draw = 0 \/ lo <= inT <= hi).
  { destruct (Req_dec v2 draw) as [->|]; [left; field; lra|right; apply H1; lra]. }
  assert (A2 : v2 / draw = 0 \/ lo <= inT2 <= hi).
  { destruct (Req_dec v2 0) as [->|]; [left; field; lra|right; apply H2; lra]. }
  unfold sortInlets, inlets_range. destruct (Z.ltb _ _); cbn; num_simpl; splits; auto; lra.
Qed.

Lemma trunc_div3 n x : 0 <= x -> (0 <= Rtrunc (INR n * x))%Z.
Proof.
  intros. rewrite Rtrunc_nonneg by (apply Rmult_le_pos; auto; apply pos_INR).
  change 0%Z with (Rfloor 0 + 0)%Z || idtac.
  assert (Rfloor 0 = 0%Z) by (apply Rfloor_unique; cbn; lra).
  rewrite <- H0. apply Rfloor_mono. apply Rmult_le_pos; auto; apply pos_INR.
Qed.

Lemma drawPhase_noHX fuel draw inT v2 inT2 t t' :
  wf_tank t -> ports_ok t -> t_hasHX t = false -> 0 < draw ->
  drawPhase fuel draw inT v2 inT2 t = (Ok tt, t') ->
  sameTank t t' /\ v2 <= draw /\
  t_nodeCp t * Rsum (t_Ts t') = t_nodeCp t * Rsum (t_Ts t)
    + CPWATER * DENSITYWATER * ((draw - v2) * inT + v2 * inT2)
    - CPWATER * DENSITYWATER * draw * t_outletT t' /\
  (forall lo hi, 0 <= v2 -> (v2 < draw -> lo <= inT <= hi) -> (0 < v2 -> lo <= inT2 <= hi) ->
     within lo hi (t_Ts t) -> within lo hi (t_Ts t') /\ lo <= t_outletT t' <= hi) /\
  (t_doMix t = true -> stratified (t_Ts t) -> stratified (t_Ts t')).
Proof.
  intros Hwf Hp Hhx Hd E. unfold drawPhase in E. num_simpl.
  assert (Ed : Rltb 0 draw = true) by (apply Rltb_true; auto). rewrite Ed in E.
  destruct (Rltb draw v2) eqn:Ev; bcase; [discriminate|].
  unfold bind at 1, get at 1 in E. cbv beta iota in E. rewrite Hhx in E.
  assert (Hn := wf_n _ Hwf). destruct (t_Ts t) as [|x0 r0] eqn:ET; [cbn in Hn; lia|]. rewrite <- ET in *.
  set (p := sortInlets t draw inT v2 inT2) in *.
  unfold bind at 1 in E. unfold bind at 1 in E.
  destruct (drawLoop fuel fuel p (draw / t_nodeVol t) 0 t) as [[e|m|m|] t1] eqn:El; try discriminate.
  unfold modify at 1 in E. cbv beta iota in E.
  assert (Hnv := wf_nodeVol_pos _ Hwf). assert (Hcp := wf_nodeCp_pos _ Hwf).
  assert (HdN : 0 <= draw / t_nodeVol t) by (left; apply Rdiv_lt_0_compat; auto).
  assert (Hin : inlets_ok (length (t_Ts t)) p) by (apply sortInlets_ok; exact Hp).
  destruct (drawLoop_spec p fuel fuel _ 0 t e t1 Hwf Hin HdN El) as [Ts1 (H1 & H2 & H3 & H4 & H5)].
  set (C := CPWATER * DENSITYWATER) in *.
  assert (HC : 0 < C) by (unfold C; pose proof CP_pos; pose proof DENS_pos; nra).
  assert (HcpV : t_nodeCp t * (draw / t_nodeVol t) = C * draw).
  { rewrite (wf_nodeCp _ Hwf). fold C. field. lra. }
  assert (Hq := sortInlets_heat t draw inT v2 inT2). cbv zeta in Hq. fold p in Hq. rewrite Hq in H3.
  rewrite HcpV in H3.
  set (oT := e / (C * draw)) in *.
  assert (He : e = C * draw * oT) by (unfold oT; field; split; lra).
  assert (Hsum1 : t_nodeCp t * Rsum Ts1 = t_nodeCp t * Rsum (t_Ts t) + C * ((draw - v2) * inT + v2 * inT2)
                  - C * draw * oT).
  { rewrite H3, <- He. field. lra. }
  assert (Hr1 : forall lo hi, 0 <= v2 -> (v2 < draw -> lo <= inT <= hi) -> (0 < v2 -> lo <= inT2 <= hi) ->
     within lo hi (t_Ts t) -> within lo hi Ts1 /\ lo <= oT <= hi).
  { intros lo hi Hv R1 R2 Hw.
    destruct (H4 lo hi (sortInlets_range t draw inT v2 inT2 lo hi Hd ltac:(lra) R1 R2) Hw) as [A B].
    split; auto. rewrite HcpV, He in B. assert (0 < C * draw) by nra.
    split; apply (Rmult_le_reg_l (C * draw)); auto; lra. }
  unfold bind, get in E. cbv beta iota in E.
  destruct (t_mixesOnDraw (set_t_outletT oT t1)) eqn:Emix.
  - cbn [set_t_outletT numNodes t_Ts t_mixBelowFrac] in E.
    rewrite nofN_R in E. unfold modify, undef in E.
    change (numNodes (set_t_outletT oT t1)) with (numNodes t1) in E.
    change (t_Ts (set_t_outletT oT t1)) with (t_Ts t1) in E.
    set (z := Rtrunc (INR (numNodes t1) * t_mixBelowFrac t1)) in *.
    match type of E with context [if Z.ltb ?a ?b then _ else _] => destruct (Z.ltb a b) eqn:Eb end; [discriminate|].
    injection E as <-. cbn. 
    apply Z.ltb_ge in Eb.
    assert (HTs1 : t_Ts t1 = Ts1) by (rewrite H1; reflexivity).
    unfold numNodes in Eb. cbn in Eb. rewrite HTs1 in *.
    assert (Hbb : (0 <= Z.to_nat z <= length Ts1)%nat) by lia.
    splits.
    + split; cbn; [rewrite mixNodes_length; exact H2|]. rewrite H1. reflexivity.
    + lra.
    + rewrite (mixNodes_sum 0 (Z.to_nat z)) by exact Hbb. exact Hsum1.
    + intros lo hi A B D W. destruct (Hr1 lo hi A B D W). split; auto.
      apply (mixNodes_within 0 (Z.to_nat z)); auto. lra.
    + intros A B. apply (mixNodes_strat 0 (Z.to_nat z)); auto. lra.
  - unfold ret in E. injection E as <-. cbn. rewrite H1. cbn. splits; auto.
    split; cbn; auto.
Qed.
