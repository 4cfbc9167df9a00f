(** Extra heat at the reals. *)

From Coq Require Import ZArith List Bool Reals Lra Lia.
From Verif Require Import Num Base Units Types Utils TankM Logic HeatSrc Step Spec SpecState SpecDist SpecEnergy RList
  MixProofs DrawProofs TankProofs HeatProofs DistProofs ResampleProofs FrameProofs SimFrame ControlProofs EnergyProofs TankFacts.
Import ListNotations.
Local Open Scope R_scope.

Lemma filled_strat nd L Ts Ts' : (nd < length Ts)%nat -> filled nd L Ts Ts' -> stratified Ts -> stratified Ts'.
Proof.
  intros Hnd [HL HF] Hs i Hi. rewrite HL in Hi. rewrite !HF by lia.
  specialize (Hs i ltac:(lia)).
  destruct (Nat.leb_spec nd i); destruct (Nat.leb_spec nd (S i)); try lia; mm; lra.
Qed.
Lemma filled_ge nd L Ts Ts' j : filled nd L Ts Ts' -> (j < length Ts)%nat -> node Ts j <= node Ts' j.
Proof. intros [HL HF] Hj. rewrite HF by auto. destruct (Nat.leb nd j); mm; lra. Qed.
Lemma filled_below nd L Ts Ts' j : filled nd L Ts Ts' -> (j < length Ts)%nat -> (j < nd)%nat -> node Ts' j = node Ts j.
Proof. intros [HL HF] Hj Hn. rewrite HF by auto. destruct (Nat.leb_spec nd j); [lia|auto]. Qed.

(** heat of one entry (kJ) *)
Lemma extra_kJ d m : BTU_TO_KJ (KWH_TO_BTU (W_TO_KW d) * m / min_per_hr) = d / 1000 * m / 60 * 3600.
Proof. unfold BTU_TO_KJ, KWH_TO_BTU, W_TO_KW, min_per_hr, sec_per_hr, sec_per_min, min_per_hr, BTUperKWH, dec. num_simpl. field. Qed.
Lemma extra_kWh q m : BTU_TO_KWH (KWH_TO_BTU (W_TO_KW q) * m / min_per_hr) = q / 1000 * m / 60.
Proof. unfold BTU_TO_KWH, KWH_TO_BTU, W_TO_KW, min_per_hr, BTUperKWH, dec. num_simpl. field. Qed.

(** ** The loop over the nodes *)
Lemma extraLoop_spec dist m : (forall x, In x dist -> 0 <= x) -> 0 <= m -> forall k tot (w : hpwh R) r w',
  wf_tank (w_tank w) -> stratified (t_Ts (w_tank w)) -> length dist = length (t_Ts (w_tank w)) -> (k <= length dist)%nat ->
  extraLoop dist m k tot w = (Ok r, w') ->
  exists Ts', w' = set_w_tank (set_t_Ts Ts' (w_tank w)) w /\ length Ts' = length (t_Ts (w_tank w)) /\
    r = tot + KWH_TO_BTU (W_TO_KW (bsum (node dist) k)) /\
    t_nodeCp (w_tank w) * Rsum Ts' = t_nodeCp (w_tank w) * Rsum (t_Ts (w_tank w)) + bsum (node dist) k / 1000 * m / 60 * 3600 /\
    stratified Ts' /\
    (forall j, (j < length dist)%nat -> node (t_Ts (w_tank w)) j <= node Ts' j) /\
    (forall j, (j < length dist)%nat -> (forall i, (i <= j)%nat -> node dist i = 0) -> node Ts' j = node (t_Ts (w_tank w)) j).
Proof.
  intros Hd Hm. induction k; intros tot w r w' Hwf Hs HL Hk E; cbn [extraLoop] in E.
  - apply ret_inv in E. destruct E as [-> ->]. exists (t_Ts (w_tank w)). cbn [bsum]. splits; auto; try lra.
    + destruct w as []. destruct w_tank. reflexivity.
    + unfold KWH_TO_BTU, W_TO_KW, BTUperKWH, dec. num_simpl. field.
    + intros; lra.
  - gn. assert (Hin : 0 <= node dist k) by (apply Hd, node_In; lia).
    unfold nneqb in E. num_simpl. destruct (Reqb' (node dist k) 0) eqn:EQ; bcase; cbn [negb] in E.
    + destruct (IHk _ _ _ _ Hwf Hs HL ltac:(lia) E) as (Ts' & H1 & H2 & H3 & H4 & H5 & H6 & H7).
      exists Ts'. cbn [bsum]. rewrite EQ, Rplus_0_r. splits; auto.
    + apply bind_inv in E. destruct E as (u & w1 & E1 & E2). apply onTank_inv in E1. destruct E1 as (t' & E1 & ->).
      unfold addExtraHeatAboveNode, modify in E1. cbv zeta beta in E1. assert (Et := f_equal snd E1). cbn [snd] in Et. clear E1. num_simpl.
      assert (Hcp := wf_nodeCp_pos _ Hwf).
      set (q := BTU_TO_KJ (KWH_TO_BTU (W_TO_KW (node dist k)) * m / min_per_hr)) in *.
      assert (Hq : q = node dist k / 1000 * m / 60 * 3600) by apply extra_kJ.
      destruct (addExtra_spec (t_nodeCp (w_tank w)) k Hcp q (t_Ts (w_tank w)))
        as (P1 & (L & P2)); [lia| |intros i _ Hi; apply Hs; auto|].
      { rewrite Hq. assert (0 <= node dist k / 1000) by lra. assert (0 <= node dist k / 1000 * m) by nra. lra. }
      set (Ts1 := snd (addExtraLoop _ _ _ _ _ _)) in *. clearbody Ts1 q. subst t'.
      assert (L1 : length Ts1 = length (t_Ts (w_tank w))) by apply P2.
      assert (S1 : stratified Ts1) by (apply (filled_strat k L (t_Ts (w_tank w))); auto; lia).
      assert (W1 : wf_tank (set_t_Ts Ts1 (w_tank w))) by (apply wf_set_Ts; auto).
      destruct (IHk _ (set_w_tank (set_t_Ts Ts1 (w_tank w)) w) _ _ W1 S1 ltac:(cbn; lia) ltac:(lia) E2)
        as (Ts' & H1 & H2 & H3 & H4 & H5 & H6 & H7).
      cbn [w_tank set_w_tank t_Ts set_t_Ts t_nodeCp] in *. exists Ts'. cbn [bsum]. splits; auto; try lia.
      * rewrite H3. unfold KWH_TO_BTU, W_TO_KW, BTUperKWH, dec. num_simpl. field.
      * rewrite H4, P1, Hq. field.
      * intros j Hj. eapply Rle_trans; [apply (filled_ge k L _ Ts1); auto; lia|]. apply H6. auto.
      * intros j Hj HZ. rewrite H7 by auto. apply (filled_below k L); auto; try lia.
        destruct (Nat.lt_ge_cases j k); auto. exfalso. apply EQ. apply HZ. lia.
Qed.

Lemma Rsum_zero d : (forall x, In x d -> 0 <= x) -> Rsum d = 0 -> forall x, In x d -> x = 0.
Proof.
  intros Hd HS x Hx. assert (H := Rsum_ge_elem d x Hd Hx). specialize (Hd x Hx). lra.
Qed.

(** ** Redistribution *)
Lemma modifyHeatDistribution_spec fuel dist sp (t : tank R) d : extraOK dist -> dist <> [] ->
  (0 < length (t_Ts t))%nat -> INR (length (t_Ts t)) <= 10000 ->
  modifyHeatDistribution fuel dist sp t = Ok d ->
  d <> [] /\ (forall x, In x d -> 0 <= x) /\ Rsum d = Rsum dist.
Proof.
  intros Hd Hne Hn Hbig E. unfold modifyHeatDistribution in E. rewrite nsum_Rsum in E. num_simpl.
  destruct (Reqb' (Rsum dist) 0) eqn:EQ; bcase.
  - inversion E; subst. splits; auto. destruct Hd as [Hd|Hd]; [lra|auto].
  - match type of E with obind ?c _ = _ => destruct c as [d0| | |] eqn:EC; try discriminate end. cbn [obind] in E.
    apply calcThermalDist_spec in EC; auto.
    + destruct EC as ((L & P & S) & _ & _). assert (Ed : d = map (fun x => x * Rsum dist) d0) by congruence. subst d.
      assert (HT : 0 <= Rsum dist) by (destruct Hd as [Hd|Hd]; [lra|apply Rsum_nonneg; auto]). splits.
      * destruct d0; [cbn in L; lia|discriminate].
      * intros x Hx. apply in_map_iff in Hx. destruct Hx as (y & <- & Hy). specialize (P y Hy). nra.
      * rewrite Rsum_map_scal_r, S. lra.
    + rewrite tol_val. lra.
Qed.

(** ** addExtraHeat *)
Lemma addExtraHeat_spec fuel dist (w w' : hpwh R) : extraOK dist -> dist <> [] ->
  wf_tank (w_tank w) -> INR (length (t_Ts (w_tank w))) <= 10000 -> stratified (t_Ts (w_tank w)) -> 0 <= w_minStep w ->
  addExtraHeat fuel dist w = (Ok tt, w') ->
  exists Ts', w' = set_w_extraE (Rsum dist / 1000 * w_minStep w / 60) (set_w_tank (set_t_Ts Ts' (w_tank w)) w) /\
    length Ts' = length (t_Ts (w_tank w)) /\
    t_nodeCp (w_tank w) * Rsum Ts' = t_nodeCp (w_tank w) * Rsum (t_Ts (w_tank w)) + 3600 * (Rsum dist / 1000 * w_minStep w / 60) /\
    stratified Ts' /\
    (forall j, (j < length Ts')%nat -> node (t_Ts (w_tank w)) j <= node Ts' j).
Proof.
  intros Hd Hne Hwf Hbig Hs Hm E. unfold addExtraHeat in E.
  unfold bind at 1, get in E. cbv zeta in E.
  apply bind_inv in E. destruct E as (d1 & w1 & E1 & E). apply lift_inv in E1. destruct E1 as [-> E1].
  apply bind_inv in E. destruct E as (d2 & w1 & E2 & E). apply lift_inv in E2. destruct E2 as [-> E2].
  apply bind_inv in E. destruct E as (tot & w1 & E3 & E).
  unfold modify in E. apply (f_equal snd) in E. cbn [snd] in E. subst w'.
  assert (Hn := wf_n _ Hwf).
  destruct (modifyHeatDistribution_spec _ _ _ _ _ Hd Hne Hn Hbig E1) as (A1 & A2 & A3).
  destruct (resampleExtensive_eq (map (fun _ => 0) (t_Ts (w_tank w))) d1 A1) as (d2' & B1 & B2 & B3 & B4); [rewrite map_length; auto|].
  num_simpl. rewrite B1 in E2. inversion E2; subst d2'. rewrite map_length in *.
  assert (B5 : forall x, In x d2 -> 0 <= x).
  { intros x Hx. apply In_node in Hx. destruct Hx as (j & Hj & <-). rewrite B3 by lia.
    apply Rmult_le_pos; [apply pos_INR|].
    assert (HN' : 0 < INR (length (t_Ts (w_tank w)))) by (apply lt_0_INR; auto).
    assert (Hl1 : 0 < INR (length d1)) by (apply lt_0_INR; destruct d1; [congruence|cbn; lia]).
    clear - A2 HN' Hl1. generalize 0%nat. set (a := INR j / INR _). set (b := INR (S j) / _). generalize (INR (length d1)).
    intros r k. revert k. induction d1 as [|x r' IH]; intros k; cbn [profileInt]; [lra|].
    assert (0 <= x) by (apply A2; left; auto).
    pose proof (overlap_nonneg (INR k / r) (INR (S k) / r) a b).
    assert (0 <= profileInt r (S k) r' a b); [|nra].
    destruct r' as [|y r'']; [cbn; lra|]. apply IH; [intros z Hz; apply A2; right; auto|cbn [length]; apply lt_0_INR; lia]. }
  destruct (extraLoop_spec d2 (w_minStep w) B5 Hm (numNodes (w_tank w)) 0 w tot w1 Hwf Hs B2) as (Ts' & C1 & C2 & C3 & C4 & C5 & C6 & C7).
  { unfold numNodes. lia. }
  { exact E3. }
  unfold numNodes in *. rewrite <- B2 in C3, C4. rewrite <- Rsum_bsum, B4, A3 in C3, C4.
  exists Ts'. splits; auto; try lra.
  - rewrite C3, Rplus_0_l. num_simpl. rewrite extra_kWh. rewrite C1. reflexivity.
  - intros j Hj. apply C6. lia.
Qed.
