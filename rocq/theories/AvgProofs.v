(** Proofs about the averages of the tank temperature over a weighted distribution. *)

From Coq Require Import ZArith String List Bool Reals Lra Lia.
From Verif Require Import Num Base Units Types Utils TankM Spec SpecState SpecDist RList FrameProofs MixProofs DrawProofs DistProofs.
Import ListNotations.
Local Open Scope R_scope.

Lemma wsum_add (weight T sum tot : R) : 0 <= weight ->
  (if Rltb 0 weight then (sum + weight * T, tot + weight) else (sum, tot)) = (sum + weight * T, tot + weight).
Proof. intros Hw. destruct (Rltb 0 weight) eqn:E; bcase; auto. assert (weight = 0) as -> by lra. f_equal; ring. Qed.

Lemma avgW_inner_spec H nextH T : 0 < H -> nextH <= 1 -> forall r h wt prev normH sum tot,
  ascending prev ((h, wt) :: r) -> fst (last ((h, wt) :: r) (0, 0)) = H -> Forall (fun p => 0 <= snd p) ((h, wt) :: r) ->
  prev / H <= normH <= h / H -> normH <= nextH ->
  exists m normH' prev' h' wt' r' s' t',
    avgW_inner H nextH T normH (h / H) sum tot ((h, wt) :: r) = Ok (s', t', normH', (h', wt') :: r') /\
    s' = sum + m * T /\ t' = tot + m /\ 0 <= m /\
    ascending prev' ((h', wt') :: r') /\ fst (last ((h', wt') :: r') (0, 0)) = H /\ Forall (fun p => 0 <= snd p) ((h', wt') :: r') /\
    prev' / H <= normH' <= nextH /\ nextH <= h' / H /\
    m + wt' * (nextH - normH') = massOver H prev ((h, wt) :: r) normH nextH /\
    (forall x y, nextH <= x -> x <= y -> massOver H prev' ((h', wt') :: r') x y = massOver H prev ((h, wt) :: r) x y).
Proof.
  intros HH H1. induction r as [|[h2 wt2] r IH]; intros h wt prev normH sum tot HA HL HF Hn Hx; cbn [avgW_inner]; num_simpl.
  - cbn in HL. rewrite HL in *. assert (HR : H / H = 1) by (field; lra). rewrite HR in *.
    destruct (Rltb 1 nextH) eqn:E; bcase; [lra|].
    exists 0, normH, prev, H, wt, []. do 2 eexists. split; [reflexivity|]. splits; auto; try lra.
    cbn [massOver]. rewrite HR. replace (overlap (prev / H) 1 normH nextH) with (nextH - normH); [ring|]. unfold overlap. mm; lra.
  - destruct (Rltb (h / H) nextH) eqn:E; bcase.
    + assert (Hw := Forall_inv HF). assert (HF' := Forall_inv_tail HF). cbn [snd] in Hw. destruct HA as [A1 A2].
      assert (Hm : 0 <= wt * (h / H - normH)) by (apply Rmult_le_pos; lra).
      rewrite wsum_add by auto.
      pose proof (div_lt H _ _ HH A1) as D1. pose proof A2 as [A2' _]. pose proof (div_lt H _ _ HH A2') as D2.
      destruct (IH h2 wt2 h (h / H) (sum + wt * (h / H - normH) * T) (tot + wt * (h / H - normH))) as
        (m & normH' & prev' & h' & wt' & r' & s' & t' & B0 & -> & -> & B1 & B2 & B3 & B4 & B5 & B6 & B7 & B8); auto; try lra.
      exists (m + wt * (h / H - normH)), normH', prev', h', wt', r'. do 2 eexists. split; [exact B0|]. splits; auto; try lra.
      * cbn [massOver] in B7 |- *.
        assert (EO : overlap (prev / H) (h / H) normH nextH = h / H - normH) by (unfold overlap; mm; lra).
        assert (EO2 : overlap (h / H) (h2 / H) (h / H) nextH = overlap (h / H) (h2 / H) normH nextH) by (unfold overlap; mm; lra).
        assert (EM : massOver H h2 r (h / H) nextH = massOver H h2 r normH nextH).
        { rewrite (massOver_add H r normH (h / H) nextH) by (auto; try lra; apply A2).
          rewrite (massOver_above H r normH (h / H)); auto; [lra|apply A2|lra]. }
        rewrite EO, <- EO2, <- EM. lra.
      * intros x y Hx1 Hy1. rewrite B8 by auto. cbn [massOver]. rewrite (overlap_out_hi (prev / H)); [lra|]. lra.
    + exists 0, normH, prev, h, wt, ((h2, wt2) :: r). do 2 eexists. split; [reflexivity|]. splits; auto; try lra.
      destruct HA as [A1 A2]. pose proof (div_lt H _ _ HH A1) as D1. cbn [massOver].
      change (wt2 * overlap (h / H) (h2 / H) normH nextH + massOver H h2 r normH nextH) with (massOver H h ((h2, wt2) :: r) normH nextH).
      rewrite (massOver_above H ((h2, wt2) :: r)); auto.
      replace (overlap (prev / H) (h / H) normH nextH) with (nextH - normH); [ring|]. unfold overlap. mm; lra.
Qed.

Lemma avgW_loop_spec H n : 0 < H -> 0 < n -> forall Ts i h wt r prev sum tot,
  INR (i + length Ts) <= n ->
  ascending prev ((h, wt) :: r) -> fst (last ((h, wt) :: r) (0, 0)) = H -> Forall (fun p => 0 <= snd p) ((h, wt) :: r) ->
  prev / H <= INR i / n <= h / H ->
  exists s' t', avgW_loop H n i sum tot ((h, wt) :: r) Ts = Ok (s', t') /\
    s' = sum + bsum (fun k => node Ts k * massOver H prev ((h, wt) :: r) (INR (i + k) / n) (INR (S (i + k)) / n)) (length Ts) /\
    t' = tot + bsum (fun k => massOver H prev ((h, wt) :: r) (INR (i + k) / n) (INR (S (i + k)) / n)) (length Ts).
Proof.
  intros HH Hn. induction Ts as [|T Ts IH]; intros i h wt r prev sum tot HB HA HL HF HP; cbn [avgW_loop length].
  - do 2 eexists. split; [reflexivity|]. cbn. split; ring.
  - assert (Hin : INR i / n <= INR (S i) / n).
    { apply Rmult_le_compat_r; [left; apply Rinv_0_lt_compat; auto|]. rewrite S_INR. lra. }
    assert (Hi1 : INR (S i) / n <= 1).
    { apply Rmult_le_reg_r with n; auto. unfold Rdiv. rewrite Rmult_assoc, Rinv_l by lra.
      assert (INR (S i) <= INR (i + length (T :: Ts))) by (apply le_INR; cbn; lia). lra. }
    num_simpl. rewrite !nofN_R. 
    destruct (avgW_inner_spec H (INR (S i) / n) T HH Hi1 r h wt prev (INR i / n) sum tot HA HL HF HP Hin) as
      (m & normH' & prev' & h' & wt' & r' & s' & t' & B0 & -> & -> & B1 & B2 & B3 & B4 & B5 & B6 & B7 & B8).
    rewrite B0. cbn [obind].
    assert (Hw : 0 <= wt' * (INR (S i) / n - normH')) by (inversion B4; subst; cbn [snd] in *; apply Rmult_le_pos; lra).
    rewrite wsum_add by auto.
    destruct (IH (S i) h' wt' r' prev' (sum + m * T + wt' * (INR (S i) / n - normH') * T) (tot + m + wt' * (INR (S i) / n - normH')))
      as (s2 & t2 & C0 & -> & ->); auto; try lra.
    { cbn [length] in HB. replace (S i + length Ts)%nat with (i + S (length Ts))%nat by lia. exact HB. }
    do 2 eexists. split; [exact C0|]. rewrite !bsum_S_l. rewrite !Nat.add_0_r. cbn [node nth]. rewrite <- B7.
    assert (EM : forall k, massOver H prev' ((h', wt') :: r') (INR (S i + k) / n) (INR (S (S i + k)) / n) =
                   massOver H prev ((h, wt) :: r) (INR (i + S k) / n) (INR (S (i + S k)) / n)).
    { intros k. replace (i + S k)%nat with (S i + k)%nat by lia. apply B8.
      - apply Rmult_le_compat_r; [left; apply Rinv_0_lt_compat; auto|]. apply le_INR. lia.
      - apply Rmult_le_compat_r; [left; apply Rinv_0_lt_compat; auto|]. apply le_INR. lia. }
    split.
    + rewrite (bsum_ext _ (fun k => node Ts k * massOver H prev ((h, wt) :: r) (INR (i + S k) / n) (INR (S (i + S k)) / n))).
      * replace (node (T :: Ts) 0) with T by reflexivity.
        match goal with |- _ + ?A = _ + (_ + ?B) => replace B with A by reflexivity end. ring.
      * intros k _. rewrite EM. reflexivity.
    + rewrite (bsum_ext _ (fun k => massOver H prev ((h, wt) :: r) (INR (i + S k) / n) (INR (S (i + S k)) / n))); [lra|].
      intros k _. rewrite EM. reflexivity.
Qed.

Lemma massOver_slices H w n : 0 < H -> ascending 0 w -> (0 < n)%nat ->
  bsum (fun k => massOver H 0 w (INR k / INR n) (INR (S k) / INR n)) n = massOver H 0 w 0 1.
Proof.
  intros HH HA Hn. assert (HN : 0 < INR n) by (apply lt_0_INR; auto).
  assert (HG : forall p, (p <= n)%nat -> bsum (fun k => massOver H 0 w (INR k / INR n) (INR (S k) / INR n)) p = massOver H 0 w 0 (INR p / INR n)).
  { induction p as [|p IH]; intros Hp; cbn [bsum].
    - replace (INR 0 / INR n) with 0 by (cbn; field; lra). rewrite massOver_empty; auto.
    - rewrite IH by lia. symmetry. apply massOver_add; auto. split.
      + apply Rmult_le_pos; [apply pos_INR|left; apply Rinv_0_lt_compat; auto].
      + apply Rmult_le_compat_r; [left; apply Rinv_0_lt_compat; auto|]. apply le_INR. lia. }
  rewrite HG by lia. f_equal. field. lra.
Qed.

(** the average is the mean of the nodes weighted with their share of the distribution *)
Lemma averageT_wdist_eq w t : goodDist w -> (0 < length (t_Ts t))%nat ->
  averageT_wdist w t = Ok (bsum (fun k => node (t_Ts t) k * share w (INR k / INR (length (t_Ts t))) (INR (S k) / INR (length (t_Ts t)))) (length (t_Ts t))).
Proof.
  intros HG Hn. pose proof (massOver_total_pos w HG) as HM. pose proof HG as [G1 G2 G3 G4].
  pose proof (topHeight_pos w G2 G1) as HH. unfold averageT_wdist. change (wd_maxHeight w) with (topHeight w).
  unfold numNodes. rewrite nofN_R. num_simpl. destruct w as [|[h wt] r]; [congruence|]. set (w := (h, wt) :: r) in *.
  assert (HN : 0 < INR (length (t_Ts t))) by (apply lt_0_INR; auto).
  destruct (avgW_loop_spec (topHeight w) (INR (length (t_Ts t))) HH HN (t_Ts t) 0%nat h wt r 0 0 0) as (s' & t' & E & -> & ->); auto.
  - cbn [Nat.add]. apply Rle_refl.
  - replace (INR 0 / INR (length (t_Ts t))) with 0 by (cbn; field; lra). replace (0 / topHeight w) with 0 by (field; lra).
    split; [lra|]. destruct G2 as [G2 _]. pose proof (div_lt (topHeight w) _ _ HH G2) as HX. replace (0 / topHeight w) with 0 in HX by (field; lra). lra.
  - fold w in E. rewrite E. cbn [obind]. fold w. cbn [Nat.add]. rewrite !Rplus_0_l.
    rewrite massOver_slices by auto. unfold div_chk. num_simpl. destruct (Reqb' _ 0) eqn:EQ; bcase; [lra|]. cbn [negb]. f_equal.
    unfold share, Rdiv at 1. rewrite Rmult_comm. rewrite <- bsum_scal. apply bsum_ext. intros k _. field. lra.
Qed.

(** so it lies in every range that contains the nodes *)
Lemma averageT_wdist_within w t lo hi T : goodDist w -> (0 < length (t_Ts t))%nat -> within lo hi (t_Ts t) ->
  averageT_wdist w t = Ok T -> lo <= T <= hi.
Proof.
  intros HG Hn HW E. rewrite averageT_wdist_eq in E by auto. injection E as <-.
  set (n := length (t_Ts t)) in *. set (weight := fun k => share w (INR k / INR n) (INR (S k) / INR n)).
  assert (H1 : bsum weight n = 1).
  { pose proof (massOver_total_pos w HG) as HM. pose proof HG as [G1 G2 G3 G4]. pose proof (topHeight_pos w G2 G1) as HH.
    unfold weight, share. rewrite (bsum_ext _ (fun k => / massOver (topHeight w) 0 w 0 1 * massOver (topHeight w) 0 w (INR k / INR n) (INR (S k) / INR n)))
      by (intros; unfold Rdiv; ring).
    rewrite bsum_scal, massOver_slices by auto. field. lra. }
  assert (HX : forall c, bsum (fun k => c * weight k) n = c) by (intros; rewrite bsum_scal, H1; ring).
  assert (HS : forall k, 0 <= weight k) by (intros; apply share_nonneg; auto).
  assert (HN : forall k, (k < n)%nat -> lo <= node (t_Ts t) k <= hi) by (intros; apply HW, node_In; auto).
  split; [rewrite <- (HX lo) at 1|rewrite <- (HX hi)]; apply bsum_le; intros k Hk; apply (Rmult_le_compat_r (weight k)); auto; apply HN; auto.
Qed.
