(** Proofs that the heating loop of a single-pass external condenser finishes. *)

From Coq Require Import ZArith String List Bool Reals Lra Lia.
From Verif Require Import Num Base Units Types Utils TankM Logic HeatSrc Step Spec SpecState SpecDist SpecEnergy SpecStep SpecExt RList.
From Verif Require Import FrameProofs SimFrame MixProofs DrawProofs TankProofs ControlProofs DistProofs AvgProofs EnergyProofs ExtProofs Progress ExtProgress.
Import ListNotations.
Local Open Scope R_scope.

(** ** Mixing leaves a stratified profile as it is *)
Lemma mixed_strat A B : stratified A -> mixed_of A B -> B = A.
Proof.
  intros HS HM. pose proof (mo_len _ _ HM) as HL.
  assert (HP : forall p, (p <= length A)%nat -> bsum (node B) p = bsum (node A) p).
  { intros p Hp. pose proof (mo_up _ _ HM p Hp) as HU. destruct HU as [HU|HU]; auto. exfalso.
    assert (HB : forall d p, (d = length A - p)%nat -> (p <= length A)%nat -> (exists q, (q < p)%nat /\ p = S q) ->
              (forall q, p = S q -> node B q < node A q) -> bsum (node B) p < bsum (node A) p -> False).
    { induction d as [|d IH]; intros p0 Hd Hp0 (q & Hq & ->) Hlt HU0.
      - assert (S q = length A) as E by lia. rewrite E in HU0. pose proof (mo_sum _ _ HM). lra.
      - apply (IH (S (S q))); try lia; [exists (S q); split; auto; lia| |].
        + intros q' E. inversion E; subst q'. specialize (Hlt q eq_refl). specialize (HS q ltac:(lia)).
          destruct (Rlt_dec (node B q) (node B (S q))) as [HC|HC]; [|lra].
          pose proof (mo_cut _ _ HM (S q) ltac:(lia)) as HCt. replace (S q - 1)%nat with q in HCt by lia. specialize (HCt HC). lra.
        + cbn [bsum] in *. specialize (Hlt q eq_refl). specialize (HS q ltac:(lia)).
          destruct (Rlt_dec (node B q) (node B (S q))) as [HC|HC].
          * pose proof (mo_cut _ _ HM (S q) ltac:(lia)) as HCt. replace (S q - 1)%nat with q in HCt by lia. specialize (HCt HC). cbn [bsum] in HCt. lra.
          * lra. }
    (* the first prefix that falls short *)
    assert (HF : exists p0, (p0 <= p)%nat /\ (exists q, (q < p0)%nat /\ p0 = S q) /\ (forall q, p0 = S q -> node B q < node A q) /\ bsum (node B) p0 < bsum (node A) p0).
    { clear HB. induction p as [|p IHp]; [cbn in HU; lra|].
      destruct (Rlt_dec (bsum (node B) p) (bsum (node A) p)) as [HC|HC].
      - destruct (IHp ltac:(lia) HC) as (p0 & E1 & E2 & E3 & E4). exists p0. splits; auto.
      - exists (S p). splits; auto; [exists p; split; auto|]. intros q E. inversion E; subst q. cbn [bsum] in HU. lra. }
    destruct HF as (p0 & E1 & E2 & E3 & E4). apply (HB (length A - p0)%nat p0); auto. lia. }
  apply list_eq_node; auto. intros k Hk. rewrite HL in Hk.
  pose proof (HP k ltac:(lia)) as H1. pose proof (HP (S k) ltac:(lia)) as H2. cbn [bsum] in H2. lra.
Qed.

(** ** The scan over the nodes (HPWHHeatingLogic.cc:252-268) gives the average of the distribution *)
Lemma temp_scan_spec w (Ts : list R) : goodDist w -> (0 < length Ts)%nat ->
  exists f l, temp_scan w Ts = (Some f, l, bsum (fun k => node Ts k * share w (INR k / INR (length Ts)) (INR (S k) / INR (length Ts))) (length Ts), 1) /\
    (f <= l < length Ts)%nat.
Proof.
  intros HG Hn. set (n := length Ts). assert (HN : 0 < INR n) by (apply lt_0_INR; auto).
  set (sh := fun k => share w (INR k / INR n) (INR (S k) / INR n)).
  set (step := fun '(first, last, sum, tot) i =>
                 let fStart := INR i / INR n in
                 let wt := wd_normalizedWeight w fStart (fStart + 1 / INR n) in
                 if Rltb 0 wt then
                   (match first with None => Some i | _ => first end, i, sum + wt * node Ts i, tot + wt)
                 else (first, last, sum, tot)).
  assert (ES : temp_scan w Ts = fold_left step (seq 0 n) (None, O, 0, 0)).
  { unfold temp_scan, step. fold n. apply fold_left_ext_in || idtac. rewrite !nofN_R. num_simpl.
    generalize (None : option nat, 0%nat, 0, 0). generalize (seq 0 n). induction l as [|i l IH]; intros acc; cbn [fold_left]; auto.
    rewrite IH. f_equal. destruct acc as [[[first last] sum] tot]. rewrite nofN_R. gn. reflexivity. }
  assert (HI : forall k, (k <= n)%nat -> exists first last, fold_left step (seq 0 k) (None, O, 0, 0) =
     (first, last, bsum (fun i => node Ts i * sh i) k, bsum sh k) /\
     match first with None => bsum sh k = 0 | Some f => (f <= last < k)%nat end).
  { induction k as [|k IH]; intros Hk.
    - exists None, O. split; reflexivity.
    - destruct (IH ltac:(lia)) as (first & last & E & HX). rewrite seq_S, fold_left_app, E. cbn [fold_left Nat.add]. unfold step at 1.
      assert (EW : wd_normalizedWeight w (INR k / INR n) (INR k / INR n + 1 / INR n) = sh k).
      { unfold sh. pose proof (frac_bounds k n ltac:(lia) Hn). replace (INR k / INR n + 1 / INR n) with (INR (S k) / INR n) by (rewrite S_INR; field; lra).
        apply normalizedWeight_eq; try apply HG. pose proof (frac_step k n Hn). lra. }
      cbv zeta. rewrite EW. assert (H0 : 0 <= sh k) by (apply share_nonneg; auto). cbn [bsum].
      destruct (Rltb 0 (sh k)) eqn:EC; bcase.
      + do 2 eexists. split; [f_equal; f_equal; ring|]. destruct first; lia.
      + assert (E0 : sh k = 0) by lra. rewrite E0. exists first, last. split; [repeat f_equal; ring|]. destruct first; [lia|]. lra. }
  destruct (HI n (le_n _)) as (first & last & E & HX). rewrite ES, E.
  assert (HT : bsum sh n = 1).
  { pose proof (massOver_total_pos w HG) as HM. pose proof HG as [G1 G2 _ _]. pose proof (topHeight_pos w G2 G1) as HH.
    assert (EB : bsum sh n = / massOver (topHeight w) 0 w 0 1 * bsum (fun k => massOver (topHeight w) 0 w (INR k / INR n) (INR (S k) / INR n)) n).
    { rewrite <- bsum_scal. apply bsum_ext. intros k _. unfold sh, share. unfold Rdiv. ring. }
    rewrite EB, massOver_slices by auto. apply Rinv_l. lra. }
  rewrite HT in *. destruct first as [f|]; [|lra]. exists f, last. split; auto.
Qed.

Lemma last_nth_R (l : list R) : last l 0 = nth (length l - 1) l 0.
Proof.
  induction l as [|x l IH]; auto. destruct l as [|y l]; auto. change (last (x :: y :: l) 0) with (last (y :: l) 0). rewrite IH.
  cbn [length]. replace (S (S (length l)) - 1)%nat with (S (S (length l) - 1))%nat by lia. reflexivity.
Qed.

(** the value the tank shows to a logic is the average that the fraction is computed from *)
Lemma temp_value (w : W) nm d dp a c y s : (0 < length (t_Ts (w_tank w)))%nat -> (d_type d = DWeighted -> goodDist (d_w d)) ->
  exists f l avg, l_tankValue w (TempLogic nm d dp a c y s) = Ok avg /\ (f <= l < length (t_Ts (w_tank w)))%nat /\
    (forall lg, temp_fract w lg d =
       let comparisonT := l_comparison w lg + TOL_MINVALUE in
       let target := if Nat.ltb l (length (t_Ts (w_tank w)) - 1) then node (t_Ts (w_tank w)) (l + 1) else w_setpoint w in
       let nodeDiff := target - node (t_Ts (w_tank w)) f in
       Ok (INR (length (t_Ts (w_tank w))) / 12 *
           (if compare (l_cmp lg) avg comparisonT then 0 else if Rltb 0 nodeDiff then (comparisonT - avg) / nodeDiff else 1))).
Proof.
  intros Hn HG. unfold l_tankValue, averageT_distribution, temp_fract, numNodes. cbv zeta.
  assert (E12 : nofN (T:=R) LOGIC_SIZE = 12) by (rewrite nofN_R; unfold LOGIC_SIZE; cbn; lra).
  assert (EM : forall X (A B : outc X), match t_Ts (w_tank w) with [] => A | _ :: _ => B end = B) by (intros; destruct (t_Ts (w_tank w)); [cbn in Hn; lia|reflexivity]).
  destruct (d_type d) eqn:ED.
  - destruct (temp_scan_spec (d_w d) (t_Ts (w_tank w)) (HG eq_refl) Hn) as (f & l & E & HX). exists f, l. eexists. split; [apply averageT_wdist_eq; auto|]. split; auto.
    intros lg. rewrite EM, E, E12, nofN_R. gn. num_simpl. replace (_ / 1) with (bsum (fun k => node (t_Ts (w_tank w)) k * share (d_w d) (INR k / INR (length (t_Ts (w_tank w)))) (INR (S k) / INR (length (t_Ts (w_tank w))))) (length (t_Ts (w_tank w)))) by (unfold Rdiv; rewrite Rinv_1, Rmult_1_r; reflexivity). reflexivity.
  - exists (length (t_Ts (w_tank w)) - 1)%nat, (length (t_Ts (w_tank w)) - 1)%nat, (node (t_Ts (w_tank w)) (length (t_Ts (w_tank w)) - 1)).
    split; [|split; [lia|]].
    + destruct (t_Ts (w_tank w)) as [|x r] eqn:ET; [cbn in Hn; lia|]. f_equal. unfold node. num_simpl. rewrite (last_nth_R (x :: r)). reflexivity.
    + intros lg. rewrite EM, E12, nofN_R. gn. num_simpl. replace (_ / 1) with (node (t_Ts (w_tank w)) (length (t_Ts (w_tank w)) - 1)) by (unfold Rdiv; rewrite Rinv_1, Rmult_1_r; reflexivity). reflexivity.
  - exists 0%nat, 0%nat, (node (t_Ts (w_tank w)) 0). split; [|split; [lia|]].
    + destruct (t_Ts (w_tank w)) as [|x r] eqn:ET; [cbn in Hn; lia|]. reflexivity.
    + intros lg. rewrite EM, E12, nofN_R. gn. num_simpl. replace (_ / 1) with (node (t_Ts (w_tank w)) 0) by (unfold Rdiv; rewrite Rinv_1, Rmult_1_r; reflexivity). reflexivity.
Qed.

Lemma stopsHot_ready have l : stopsHot l -> logicReady have l.
Proof. destruct l; cbn; tauto. Qed.

Lemma gt_fract (w : W) l : stopsHot l -> (12 <= length (t_Ts (w_tank w)))%nat -> stratified (t_Ts (w_tank w)) ->
  (forall x, In x (t_Ts (w_tank w)) -> x <= w_setpoint w) ->
  exists f, l_fract w l = Ok f /\ 0 <= f /\
    (l_met w l = Ok false -> 1 <= f \/ TOL_MINVALUE <= f * (w_setpoint w - node (t_Ts (w_tank w)) 0)).
Proof.
  destruct l as [nm d dp a c y s|]; [|intros []]. intros [-> HG] Hn HS HT. set (lg := TempLogic nm d dp a CGreater y s).
  destruct (temp_value w nm d dp a CGreater y s ltac:(lia) HG) as (f & l & avg & EV & Hfl & EF).
  set (Ts := t_Ts (w_tank w)) in *. set (n := length Ts) in *. specialize (EF lg). cbv zeta in EF.
  change (l_fract w lg) with (temp_fract w lg d). rewrite EF. unfold lg at 2. cbn [l_cmp compare]. num_simpl. clear EF.
  unfold l_met. fold lg in EV. rewrite EV. cbn [obind]. unfold lg at 3. cbn [l_cmp compare]. num_simpl.
  set (cv := l_comparison w lg).
  set (tgt := if Nat.ltb l (n - 1) then node Ts (l + 1) else w_setpoint w).
  assert (Htgt : tgt <= w_setpoint w).
  { unfold tgt. destruct (Nat.ltb l (n - 1)) eqn:EL; [|lra]. apply Nat.ltb_lt in EL. apply HT, node_In. fold n. lia. }
  assert (HfT : node Ts 0 <= node Ts f) by (apply stratified_le; auto; [lia|fold n; lia]).
  pose proof tol_pos as Htol.
  assert (HN : 1 <= INR n / 12). { apply (le_INR 12) in Hn. assert (E12 : INR 12 = 12) by (cbn; lra). rewrite E12 in Hn. lra. }
  set (q := if Rltb (cv + TOL_MINVALUE) avg then 0 else if Rltb 0 (tgt - node Ts f) then (cv + TOL_MINVALUE - avg) / (tgt - node Ts f) else 1).
  assert (Hq : 0 <= q /\ (avg <= cv -> 1 <= q \/ TOL_MINVALUE <= q * (w_setpoint w - node Ts 0))).
  { unfold q. destruct (Rltb (cv + TOL_MINVALUE) avg) eqn:E1; bcase; [split; [lra|intros; exfalso; lra]|].
    destruct (Rltb 0 (tgt - node Ts f)) eqn:E2; bcase; [|split; [lra|left; lra]].
    split; [apply Rmult_le_pos; [lra|left; apply Rinv_0_lt_compat; lra]|]. intros Hav. right.
    apply Rle_trans with ((cv + TOL_MINVALUE - avg) / (tgt - node Ts f) * (tgt - node Ts f)).
    - unfold Rdiv. rewrite Rmult_assoc, Rinv_l by lra. lra.
    - apply Rmult_le_compat_l; [|lra]. apply Rmult_le_pos; [lra|left; apply Rinv_0_lt_compat; lra]. }
  destruct Hq as [Hq0 Hq1]. exists (INR n / 12 * q). split; [reflexivity|]. split; [apply Rmult_le_pos; lra|].
  intros EM. inversion EM as [EM']. bcase. specialize (Hq1 EM'). destruct Hq1 as [Hq1|Hq1].
  - left. nra.
  - right. apply Rle_trans with (q * (w_setpoint w - node Ts 0)); auto. apply Rmult_le_compat_r; [|nra].
    assert (node Ts 0 <= w_setpoint w) by (apply HT, node_In; fold n; lia). lra.
Qed.

Lemma gt_fractLoop (w : W) ls : Forall stopsHot ls -> (12 <= length (t_Ts (w_tank w)))%nat -> stratified (t_Ts (w_tank w)) ->
  (forall x, In x (t_Ts (w_tank w)) -> x <= w_setpoint w) -> forall x, 0 <= x ->
  exists f, fractLoop w ls x = Ok f /\ 0 <= f <= x /\
    (Forall (fun l => l_met w l = Ok false) ls -> f = x \/ 1 <= f \/ TOL_MINVALUE <= f * (w_setpoint w - node (t_Ts (w_tank w)) 0)).
Proof.
  intros HF Hn HS HT. induction HF as [|l ls HL HF IH]; intros x Hx; cbn [fractLoop].
  - exists x. split; auto. split; [lra|]. auto.
  - destruct (gt_fract w l HL Hn HS HT) as (f & E & H0 & H1). rewrite E. cbn [obind]. num_simpl.
    destruct (IH (if Rltb f x then f else x)) as (g & Eg & G0 & G1); [rcase; lra|].
    exists g. split; auto. split; [revert G0; rcase; lra|]. intros HM. inversion HM as [|? ? M1 M2]; subst. specialize (H1 M1). specialize (G1 M2).
    revert G1. destruct (Rltb f x) eqn:EC; [|auto]. intros [->|G1]; auto.
Qed.

Lemma shutsOff_false (w : W) h : shutsOff w h = Ok false ->
  node (t_Ts (w_tank w)) 0 < w_setpoint w /\ Forall (fun l => l_met w l = Ok false) (h_shutOff h).
Proof.
  unfold shutsOff. destruct (t_Ts (w_tank w)) as [|x r] eqn:ET; [discriminate|]. num_simpl. destruct (Rleb (w_setpoint w) x) eqn:E; [discriminate|]. bcase.
  intros HA. split; [exact E|]. clear E ET.
  assert (HG : forall ls acc, anyMet w ls acc = Ok false -> acc = false /\ Forall (fun l => l_met w l = Ok false) ls).
  { induction ls as [|l ls IH]; cbn [anyMet]; intros acc EQ; [inversion EQ; auto|].
    destruct (l_met w l) as [b| | |] eqn:EM; try discriminate. cbn [obind] in EQ. apply IH in EQ. destruct EQ as [EB EF]. apply orb_false_iff in EB. destruct EB as [-> ->]. auto. }
  apply (HG _ _ HA).
Qed.

(** ** Shifting the water up *)
Lemma shiftUp_node f target : forall cnt k (Ts : list R), (k + cnt <= length Ts)%nat -> forall j,
  node (shiftUp f target k cnt Ts) j =
    if (Nat.leb k j && Nat.ltb j (k + cnt))%bool
    then (1 - f) * node Ts j + f * (if Nat.eqb (S j) (k + cnt) then target else node Ts (S j)) else node Ts j.
Proof.
  induction cnt as [|c IH]; intros k Ts Hk j; cbn [shiftUp].
  - replace (Nat.leb k j && Nat.ltb j (k + 0))%bool with false; auto. symmetry. apply andb_false_iff.
    destruct (Nat.leb_spec k j); [right; apply Nat.ltb_ge; lia|left; reflexivity].
  - rewrite IH by (rewrite upd_length; lia). rewrite !node_upd by lia. num_simpl. gn.
    replace (S k + c)%nat with (k + S c)%nat by lia.
    destruct (Nat.eqb_spec j k) as [->|Hjk].
    + replace (Nat.leb (S k) k) with false by (symmetry; apply Nat.leb_gt; lia). replace (Nat.leb k k) with true by (symmetry; apply Nat.leb_le; lia).
      replace (Nat.ltb k (k + S c)) with true by (symmetry; apply Nat.ltb_lt; lia). cbn [andb].
      destruct c; [replace (Nat.eqb (S k) (k + 1)) with true by (symmetry; apply Nat.eqb_eq; lia); reflexivity|].
      replace (Nat.eqb (S k) (k + S (S c))) with false by (symmetry; apply Nat.eqb_neq; lia). replace (k + 1)%nat with (S k) by lia. reflexivity.
    + destruct (Nat.leb_spec k j) as [HK|HK].
      * replace (Nat.leb (S k) j) with true by (symmetry; apply Nat.leb_le; lia). replace (Nat.eqb (S j) k) with false by (symmetry; apply Nat.eqb_neq; lia). reflexivity.
      * replace (Nat.leb (S k) j) with false by (symmetry; apply Nat.leb_gt; lia). reflexivity.
Qed.

(** number of nodes colder than [S] and what is left to do until the whole tank is at [S] *)
Definition coldN (S : R) (Ts : list R) : R := bsum (fun k => if Rltb (node Ts k) S then 1 else 0) (length Ts).
Definition leftN (S : R) (Ts : list R) : R := bsum (fun k => S - node Ts k) (length Ts).
Definition todo (S : R) (Ts : list R) : R := coldN S Ts + leftN S Ts / TOL_MINVALUE.

Lemma coldN_bound S Ts : 0 <= coldN S Ts <= INR (length Ts).
Proof.
  unfold coldN. split; [apply bsum_nonneg; intros; rcase; lra|].
  replace (INR (length Ts)) with (bsum (fun _ => 1) (length Ts)) by (rewrite bsum_const; ring). apply bsum_le. intros; rcase; lra.
Qed.
Lemma leftN_bound lo S Ts : within lo S Ts -> 0 <= leftN S Ts <= INR (length Ts) * (S - lo).
Proof.
  intros HW. unfold leftN. assert (HK := proj1 (within_node lo S Ts) HW). split; [apply bsum_nonneg; intros k Hk; specialize (HK k Hk); lra|].
  rewrite <- bsum_const. apply bsum_le. intros k Hk. specialize (HK k Hk). lra.
Qed.
Lemma todo_bound lo S Ts : within lo S Ts -> 0 <= todo S Ts <= INR (length Ts) * (1 + (S - lo) / TOL_MINVALUE).
Proof.
  intros HW. pose proof (coldN_bound S Ts). pose proof (leftN_bound lo S Ts HW). unfold todo. pose proof tol_pos as HT.
  assert (HI : 0 < / TOL_MINVALUE) by (apply Rinv_0_lt_compat; auto). unfold Rdiv. split; [|rewrite Rmult_plus_distr_l, Rmult_1_r, <- Rmult_assoc].
  - apply Rplus_le_le_0_compat; [lra|apply Rmult_le_pos; lra].
  - apply Rplus_le_compat; [lra|apply Rmult_le_compat_r; lra].
Qed.

Lemma shift_all lo S (Ts : list R) f : (0 < length Ts)%nat -> stratified Ts -> within lo S Ts -> 0 <= f <= 1 ->
  let Ts' := shiftUp f S 0 (length Ts) Ts in
  length Ts' = length Ts /\ stratified Ts' /\ within lo S Ts' /\
  coldN S Ts' <= coldN S Ts /\ leftN S Ts' = leftN S Ts - f * (S - node Ts 0) /\
  (f = 1 -> node Ts 0 < S -> coldN S Ts' = coldN S Ts - 1).
Proof.
  intros Hn HS HW Hf Ts'. assert (HL : length Ts' = length Ts) by apply shiftUp_length.
  assert (HN : forall j, (j < length Ts)%nat -> node Ts' j = (1 - f) * node Ts j + f * (if Nat.eqb (Datatypes.S j) (length Ts) then S else node Ts (Datatypes.S j))).
  { intros j Hj. unfold Ts'. rewrite shiftUp_node by lia. cbn [Nat.leb Nat.add andb]. replace (Nat.ltb j (length Ts)) with true by (symmetry; apply Nat.ltb_lt; auto). reflexivity. }
  assert (HK := proj1 (within_node lo S Ts) HW).
  assert (HX : forall j, (j < length Ts)%nat -> node Ts j <= (if Nat.eqb (Datatypes.S j) (length Ts) then S else node Ts (Datatypes.S j)) <= S).
  { intros j Hj. destruct (Nat.eqb_spec (Datatypes.S j) (length Ts)) as [E|E]; [pose proof (HK j Hj); lra|].
    split; [apply HS; lia|apply HK; lia]. }
  split; [auto|]. split; [|split; [|split; [|split]]].
  - intros j Hj. rewrite HL in Hj. rewrite !HN by lia. pose proof (HX j ltac:(lia)) as X1. pose proof (HX (Datatypes.S j) Hj) as X2.
    replace (Nat.eqb (Datatypes.S j) (length Ts)) with false in * by (symmetry; apply Nat.eqb_neq; lia). nra.
  - apply within_node. rewrite HL. intros j Hj. rewrite HN by auto. pose proof (HX j Hj) as X1. pose proof (HK j Hj) as X2. split; nra.
  - unfold coldN. rewrite HL. apply bsum_le. intros j Hj. rewrite HN by auto. pose proof (HX j Hj) as X1. pose proof (HK j Hj) as X2.
    destruct (Rltb (node Ts j) S) eqn:E1; [rcase; lra|]. bcase. rewrite (proj2 (Rltb_false _ _)); [lra|].
    assert (node Ts j = S) by lra. assert ((if Nat.eqb (Datatypes.S j) (length Ts) then S else node Ts (Datatypes.S j)) = S) as -> by lra. nra.
  - unfold leftN. rewrite !bsum_minus, HL. rewrite <- (Rsum_bsum Ts). replace (bsum (node Ts') (length Ts)) with (Rsum Ts') by (rewrite Rsum_bsum, HL; reflexivity).
    unfold Ts'. rewrite shiftUp_sum by lia. ring.
  - intros -> H0. unfold coldN. rewrite HL. destruct (length Ts) as [|m] eqn:EL; [lia|].
    rewrite (bsum_S_l (fun k => if Rltb (node Ts k) S then 1 else 0) m). cbn [bsum].
    rewrite (bsum_ext _ (fun k => if Rltb (node Ts (Datatypes.S k)) S then 1 else 0)).
    2:{ intros k Hk. rewrite HN by lia. replace (Nat.eqb (Datatypes.S k) (Datatypes.S m)) with false by (symmetry; apply Nat.eqb_neq; lia).
        replace ((1 - 1) * node Ts k + 1 * node Ts (Datatypes.S k)) with (node Ts (Datatypes.S k)) by ring. reflexivity. }
    rewrite (HN m) by lia. rewrite Nat.eqb_refl. rewrite (proj2 (Rltb_true _ _) H0). rewrite (proj2 (Rltb_false _ _)) by lra. ring.
Qed.

(** what a single-pass condenser over the whole height of the tank needs *)
Record spCan (mf i : nat) (ext lo : R) (h : hsrc R) (w : W) : Prop := {
  sc_ext : extCan mf i ext h w;
  sc_out : h_extOut h = 0%Z;
  sc_in : h_extIn h = (Z.of_nat (length (t_Ts (w_tank w))) - 1)%Z;
  sc_n : (12 <= length (t_Ts (w_tank w)))%nat;
  sc_gt : Forall stopsHot (h_shutOff h);
  sc_strat : stratified (t_Ts (w_tank w));
  sc_Ts : within lo (w_setpoint w) (t_Ts (w_tank w))
}.

(** one pass of the loop (Condenser.cc:1056-1147) *)
Lemma extLoopSP_pass mf i ext lo (D : R -> Prop) h fuel (w : W) a : 
  (forall (w : W) cond, D cond -> exists p, getPerformance w h ext cond = Ok p /\ 0 < p_out p) ->
  (forall c, lo <= c <= w_setpoint w -> D c) ->
  spCan mf i ext lo h w -> 0 <= a_rem a ->
  (forall w' a', spCan mf i ext lo h w' -> w_setpoint w' = w_setpoint w -> 0 <= a_rem a' -> shutsOff w' h = Ok false ->
     todo (w_setpoint w) (t_Ts (w_tank w')) <= todo (w_setpoint w) (t_Ts (w_tank w)) ->
     (shutsOff w h = Ok false -> todo (w_setpoint w) (t_Ts (w_tank w')) <= todo (w_setpoint w) (t_Ts (w_tank w)) - 1) ->
     succ (extLoopSP fuel mf i ext (w_setpoint w) a') w') ->
  succ (extLoopSP (S fuel) mf i ext (w_setpoint w) a) w.
Proof.
  intros HP HD [HC Hout Hin Hn Hgt HS HW] Hr HK.
  cbn [extLoopSP]. pose proof (ec_wf _ _ _ _ _ HC) as Hwf. pose proof (ec_nth _ _ _ _ _ HC) as Hnth.
  apply succ_bind; [apply succ_getHS; apply nth_error_Some; congruence|]. intros h0 w0 E0. apply getHS_inv in E0. destruct E0 as [-> E0]. rewrite Hnth in E0. inversion E0; subst h0. clear E0.
  apply succ_bind; [apply succ_get|]. intros w0 w1 E. apply get_inv in E. destruct E as [-> ->].
  assert (EP : extPorts (numNodes (w_tank w)) h = Some (0%nat, length (t_Ts (w_tank w)))).
  { unfold extPorts, numNodes. rewrite Hout, Hin. 
    replace ((0 <=? 0)%Z && (0 <? Z.of_nat (length (t_Ts (w_tank w))))%Z)%bool with true by (symmetry; apply andb_true_iff; split; [reflexivity|apply Z.ltb_lt; lia]).
    replace (Z.leb 0 (Z.of_nat (length (t_Ts (w_tank w))) - 1)) with true by (symmetry; apply Z.leb_le; lia).
    replace (Z.ltb _ _) with true by (symmetry; apply Z.ltb_lt; lia). repeat f_equal. lia. }
  rewrite EP. cbv zeta. gn. set (Ts := t_Ts (w_tank w)) in *. set (T0 := node Ts 0) in *. set (sp := w_setpoint w) in *.
  assert (HK0 := proj1 (within_node lo sp Ts) HW). assert (H0 : lo <= T0 <= sp) by (apply HK0; lia).
  destruct (HP w T0 (HD _ H0)) as (p & Ep & Hpo).
  apply succ_bind; [eapply succ_lift; exact Ep|]. intros p0 w1 E. apply lift_inv in E. destruct E as [-> E]. rewrite Ep in E. inversion E; subst p0. clear E.
  unfold W_TO_KW, sec_per_min. num_simpl.
  destruct (Rleb (sp - T0) 0) eqn:EdT; [apply succ_ret|]. bcase.
  set (cap := p_out p / 1000 * (a_rem a * 60)) in *. set (nh := t_nodeCp (w_tank w) * (sp - T0)) in *.
  assert (Hcap : 0 <= cap) by (unfold cap; apply Rmult_le_pos; lra).
  assert (Hnh : 0 < nh) by (apply Rmult_lt_0_compat; [apply (wf_nodeCp_pos _ Hwf)|lra]).
  destruct (gt_fractLoop w (h_shutOff h) Hgt Hn HS (fun x Hx => proj2 (HW x Hx)) 1 ltac:(lra)) as (fs & EF & F0 & F1).
  fold Ts T0 sp in F1. change (fractLoop w (h_shutOff h) 1) with (fractToMeet w h) in EF.
  set (fn := if Rltb cap nh then (cap / nh, cap) else (1, nh)).
  assert (Hfn : (fst fn = 1 /\ snd fn = nh /\ nh <= cap) \/ (0 <= fst fn <= 1 /\ snd fn = cap /\ snd fn = fst fn * nh)).
  { unfold fn. destruct (Rltb cap nh) eqn:EC; bcase; cbn [fst snd]; [right|left; splits; lra]. split; [|split; [reflexivity|field; lra]]. split.
    - apply Rmult_le_pos; [lra|left; apply Rinv_0_lt_compat; lra].
    - apply (Rmult_le_reg_r nh); auto. unfold Rdiv. rewrite Rmult_assoc, Rinv_l by lra. lra. }
  destruct fn as [f1 n1]. cbn [fst snd] in Hfn.
  apply succ_bind; [eapply succ_lift; exact EF|]. intros fs0 w1 E. apply lift_inv in E. destruct E as [-> E]. rewrite EF in E. inversion E; subst fs0. clear E.
  set (fn2 := if Rltb fs f1 then (fs, fs * nh) else (f1, n1)).
  assert (Hfn2 : 0 <= fst fn2 <= 1 /\ (snd fn2 < cap -> fst fn2 = 1 \/ fst fn2 = fs)).
  { unfold fn2. destruct (Rltb fs f1) eqn:EC; bcase; cbn [fst snd]; [split; [lra|auto]|]. destruct Hfn as [(-> & -> & Hx)|(Hx & -> & Hy)]; split; auto; lra. }
  destruct fn2 as [f n2]. cbn [fst snd] in Hfn2. destruct Hfn2 as [Hf Hfc]. clear Hfn.
  set (tr := if Rltb n2 cap then (a_rem a * (n2 / cap), a_rem a - a_rem a * (n2 / cap)) else (a_rem a, 0)).
  assert (Htr : 0 < snd tr -> n2 < cap). { unfold tr. destruct (Rltb n2 cap) eqn:EC; bcase; cbn [snd]; lra. }
  destruct tr as [tm rem]. cbn [snd] in Htr.
  apply (tail_succ mf i ext h w (fun w1 => w_condIn w1 + T0 * tm) (fun w1 => w_condOut w1 + sp * tm) (fun Ts1 => shiftUp f sp 0 (length Ts) Ts1)); auto.
  { intros Ts1. apply shiftUp_length. }
  intros w' C' V' L' P' _ M'. fold Ts in M', L'. fold sp in P'.
  destruct (Rltb 0 rem) eqn:ER; [|apply succ_ret]. bcase. specialize (Hfc (Htr ER)).
  destruct (shift_all lo sp Ts f ltac:(lia) HS HW Hf) as (A1 & A2 & A3 & A4 & A5 & A6). cbv zeta in *.
  pose proof (mixed_strat _ _ A2 M') as ET. clear M'. rewrite <- ET in A1, A2, A3, A4, A5, A6.
  apply succ_bind; [eapply ask_off; eauto|]. intros off w2 E2. apply askHS_inv in E2. destruct E2 as [-> (h2 & Eh2 & Eoff)].
  rewrite (ec_nth _ _ _ _ _ C') in Eh2. inversion Eh2; subst h2. destruct off; [apply succ_ret|].
  pose proof tol_pos as Htol. assert (HI : 0 < / TOL_MINVALUE) by (apply Rinv_0_lt_compat; auto).
  apply HK; auto; cbn [a_rem]; try lra.
  - constructor; auto; rewrite ?L', ?P'; auto.
  - unfold todo. rewrite A5. unfold Rdiv. assert (0 <= f * (sp - T0) * / TOL_MINVALUE) by (apply Rmult_le_pos; [apply Rmult_le_pos; lra|lra]). fold T0. lra.
  - intros Eoff0. apply shutsOff_false in Eoff0. destruct Eoff0 as [_ Hun]. specialize (F1 Hun). unfold todo. rewrite A5. fold T0. unfold Rdiv.
    assert (HC1 : f = 1 \/ TOL_MINVALUE <= f * (sp - T0)) by (destruct Hfc as [->| ->]; auto; destruct F1 as [->|[F1|F1]]; auto; left; lra).
    destruct HC1 as [Hf1|Hf1].
    + rewrite A6 by (auto; fold T0; lra). assert (0 <= f * (sp - T0) * / TOL_MINVALUE) by (apply Rmult_le_pos; [apply Rmult_le_pos; lra|lra]). lra.
    + assert (1 <= f * (sp - T0) * / TOL_MINVALUE). { apply (Rmult_le_compat_r (/ TOL_MINVALUE)) in Hf1; [|lra]. rewrite Rinv_r in Hf1 by lra. exact Hf1. } lra.
Qed.

Lemma extLoopSP_unmet mf i ext lo (D : R -> Prop) h :
  (forall (w : W) cond, D cond -> exists p, getPerformance w h ext cond = Ok p /\ 0 < p_out p) ->
  forall fuel (w : W) a, (forall c, lo <= c <= w_setpoint w -> D c) -> spCan mf i ext lo h w -> 0 <= a_rem a -> shutsOff w h = Ok false ->
  todo (w_setpoint w) (t_Ts (w_tank w)) < INR fuel -> succ (extLoopSP fuel mf i ext (w_setpoint w) a) w.
Proof.
  intros HP. induction fuel as [|fuel IH]; intros w a HD HC Hr Hoff Hb.
  - pose proof (todo_bound _ _ _ (sc_Ts _ _ _ _ _ _ HC)). cbn in Hb. lra.
  - eapply extLoopSP_pass; eauto. intros w' a' HC' Hsp Hr' Hoff' _ HT. specialize (HT Hoff). rewrite <- Hsp. apply IH; auto.
    + rewrite Hsp. auto.
    + rewrite Hsp. rewrite S_INR in Hb. lra.
Qed.

Lemma addHeatExternal_succ fuel i ext lo (D : R -> Prop) h m (w : W) :
  (forall (w : W) cond, D cond -> exists p, getPerformance w h ext cond = Ok p /\ 0 < p_out p) ->
  (forall c, lo <= c <= w_setpoint w -> D c) -> spCan fuel i ext lo h w -> w_setpoint w <= h_maxSet h -> 0 <= m ->
  passes (length (t_Ts (w_tank w))) (w_setpoint w) lo <= INR fuel -> succ (addHeatExternal fuel i ext m) w.
Proof.
  intros HP HD HC Hmax Hm Hb. unfold addHeatExternal. pose proof (ec_nth _ _ _ _ _ (sc_ext _ _ _ _ _ _ HC)) as Hn.
  apply succ_bind; [apply succ_getHS; apply nth_error_Some; congruence|]. intros h0 w0 E0. apply getHS_inv in E0. destruct E0 as [-> E0]. rewrite Hn in E0. inversion E0; subst h0. clear E0.
  apply succ_bind; [apply succ_get|]. intros w0 w1 E. apply get_inv in E. destruct E as [-> ->].
  apply succ_bind; [|intros; apply extFinish_succ].
  assert (Emin : nmin (h_maxSet h) (w_setpoint w) = w_setpoint w). { unfold nmin. num_simpl. destruct (Rltb _ _) eqn:EQ; bcase; lra. }
  rewrite Emin. destruct fuel as [|fuel]; [pose proof (ec_fuel _ _ _ _ _ (sc_ext _ _ _ _ _ _ HC)); lia|].
  pose proof (todo_bound _ _ _ (sc_Ts _ _ _ _ _ _ HC)) as HT. unfold passes in Hb. rewrite S_INR in Hb. rewrite tol_val in HT.
  replace ((w_setpoint w - lo) / (1 / 10000)) with ((w_setpoint w - lo) * 10000) in HT by field.
  eapply (extLoopSP_pass (S fuel)); eauto. intros w' a' HC' Hsp Hr' Hoff' HT' _. rewrite <- Hsp. eapply extLoopSP_unmet; eauto; rewrite Hsp; auto. lra.
Qed.

(** ** Loops that never finish *)

(** the part of a pass after the amounts are known, as in [tail_succ], with the state it reaches *)
Lemma tail_run {A} mf i ext h (w : W) ci co fTs fv (k : M W A) : extCan mf i ext h w -> (forall Ts, length (fTs Ts) = length Ts) ->
  exists w', extCan mf i ext h w' /\ length (t_Ts (w_tank w')) = length (t_Ts (w_tank w)) /\ w_setpoint w' = w_setpoint w /\
     t_nodeCp (w_tank w') = t_nodeCp (w_tank w) /\ mixed_of (fTs (t_Ts (w_tank w))) (t_Ts (w_tank w')) /\
  bind (modify (fun w => set_w_condOut (co w) (set_w_condIn (ci w) w))) (fun _ =>
        bind (modify (fun w => set_w_tank (set_t_Ts (fTs (t_Ts (w_tank w))) (w_tank w)) w)) (fun _ =>
        bind (onTank (mixInversions mf)) (fun _ => bind updateSoC (fun _ => bind (modify (fun w => set_w_extVol (fv w) w)) (fun _ => k))))) w = k w'.
Proof.
  intros HC HL.
  set (K4 := fun w4 : W => k (set_w_extVol (fv w4) w4)).
  unfold bind at 1, modify at 1. remember (set_w_condOut (co w) (set_w_condIn (ci w) w)) as w1 eqn:E1.
  destruct (extCan_same mf i ext h w w1 (t_Ts (w_tank w))) as (C1 & L1 & V1 & S1); auto; try solve [rewrite E1; wsimpl; auto; match goal with |- ?t = _ => destruct t; reflexivity end].
  assert (P1 : w_setpoint w1 = w_setpoint w /\ t_nodeCp (w_tank w1) = t_nodeCp (w_tank w)) by (rewrite E1; wsimpl; auto). destruct P1 as [P1 Q1]. clear E1.
  unfold bind at 1, modify at 1. remember (set_w_tank (set_t_Ts (fTs (t_Ts (w_tank w1))) (w_tank w1)) w1) as w2 eqn:E2.
  destruct (extCan_same mf i ext h w1 w2 (fTs (t_Ts (w_tank w1)))) as (C2 & L2 & V2 & S2); auto; try solve [rewrite E2; wsimpl; auto; match goal with |- ?t = _ => destruct t; reflexivity end].
  assert (P2 : w_setpoint w2 = w_setpoint w1 /\ t_nodeCp (w_tank w2) = t_nodeCp (w_tank w1)) by (rewrite E2; wsimpl; auto). destruct P2 as [P2 Q2]. clear E2.
  destruct (mix_succ mf w2 (ec_wf _ _ _ _ _ C2) (ec_fuel _ _ _ _ _ C2)) as ([] & w3 & E3). unfold bind at 1. rewrite E3.
  apply onTank_mix in E3; [|apply (ec_wf _ _ _ _ _ C2)]. destruct E3 as (Ts' & E3 & HM & _).
  destruct (extCan_same mf i ext h w2 w3 Ts') as (C3 & L3 & V3 & S3); auto; try solve [rewrite E3; wsimpl; auto; match goal with |- ?t = _ => destruct t; reflexivity end].
  { apply (mo_len _ _ HM). }
  assert (P3 : w_setpoint w3 = w_setpoint w2 /\ t_nodeCp (w_tank w3) = t_nodeCp (w_tank w2)) by (rewrite E3; wsimpl; auto). destruct P3 as [P3 Q3]. clear E3.
  destruct (updateSoC_soc w3 (ec_soc _ _ _ _ _ C3)) as ([] & w4 & E4). unfold bind at 1. rewrite E4. apply updateSoC_inv in E4.
  destruct (extCan_same mf i ext h w3 w4 (t_Ts (w_tank w3))) as (C4 & L4 & V4 & S4); auto; try solve [rewrite E4; wsimpl; auto; match goal with |- ?t = _ => destruct t; reflexivity end].
  assert (P4 : w_setpoint w4 = w_setpoint w3 /\ t_nodeCp (w_tank w4) = t_nodeCp (w_tank w3)) by (rewrite E4; wsimpl; auto). destruct P4 as [P4 Q4]. clear E4.
  unfold bind at 1, modify at 1. remember (set_w_extVol (fv w4) w4) as w5 eqn:E5.
  destruct (extCan_same mf i ext h w4 w5 (t_Ts (w_tank w4))) as (C5 & L5 & V5 & S5); auto; try solve [rewrite E5; wsimpl; auto; match goal with |- ?t = _ => destruct t; reflexivity end].
  assert (P5 : w_setpoint w5 = w_setpoint w4 /\ t_nodeCp (w_tank w5) = t_nodeCp (w_tank w4)) by (rewrite E5; wsimpl; auto). destruct P5 as [P5 Q5]. clear E5.
  exists w5. rewrite S2, S1 in HM. splits; auto; congruence.
Qed.

(** a pass that is limited by the shut-off fraction [fs] and leaves time over goes on to the next pass unless a logic stops it *)
Lemma extLoopSP_limited mf i ext setT h fuel (w : W) a o cnt p fs : extCan mf i ext h w ->
  extPorts (length (t_Ts (w_tank w))) h = Some (o, cnt) -> getPerformance w h ext (node (t_Ts (w_tank w)) o) = Ok p -> 0 < p_out p -> 0 < a_rem a ->
  node (t_Ts (w_tank w)) o < setT -> fractToMeet w h = Ok fs -> 0 <= fs < 1 ->
  fs * (t_nodeCp (w_tank w) * (setT - node (t_Ts (w_tank w)) o)) < p_out p / 1000 * (a_rem a * 60) ->
  stratified (shiftUp fs setT o cnt (t_Ts (w_tank w))) ->
  exists w' a', extCan mf i ext h w' /\ w_setpoint w' = w_setpoint w /\ t_nodeCp (w_tank w') = t_nodeCp (w_tank w) /\
    t_Ts (w_tank w') = shiftUp fs setT o cnt (t_Ts (w_tank w)) /\
    p_out p / 1000 * (a_rem a' * 60) = p_out p / 1000 * (a_rem a * 60) - fs * (t_nodeCp (w_tank w) * (setT - node (t_Ts (w_tank w)) o)) /\
    (shutsOff w' h = Ok false -> extLoopSP (S fuel) mf i ext setT a w = extLoopSP fuel mf i ext setT a' w').
Proof.
  intros HC EP Ep Hpo Hr HT EF Hfs Hcap HS. pose proof (ec_wf _ _ _ _ _ HC) as Hwf. pose proof (ec_nth _ _ _ _ _ HC) as Hnth.
  set (Ts := t_Ts (w_tank w)) in *. set (T0 := node Ts o) in *. set (nh := t_nodeCp (w_tank w) * (setT - T0)) in *. set (cap := p_out p / 1000 * (a_rem a * 60)) in *.
  assert (Hnh : 0 < nh) by (apply Rmult_lt_0_compat; [apply (wf_nodeCp_pos _ Hwf)|lra]).
  assert (Hc0 : 0 < cap) by (unfold cap; apply Rmult_lt_0_compat; lra).
  set (tm := a_rem a * (fs * nh / cap)).
  assert (Htm : cap - p_out p / 1000 * ((a_rem a - tm) * 60) = fs * nh).
  { assert (p_out p / 1000 * (tm * 60) = fs * nh); [|unfold cap; lra]. unfold tm. replace (p_out p / 1000 * (a_rem a * (fs * nh / cap) * 60)) with (cap * (fs * nh / cap)) by (unfold cap; ring). field. lra. }
  assert (Hrem : 0 < a_rem a - tm).
  { assert (HX : 0 < p_out p / 1000 * 60 * (a_rem a - tm)) by lra. destruct (Rlt_dec 0 (a_rem a - tm)); auto. assert (0 < p_out p / 1000 * 60) by lra. nra. }
  set (a' := mkacc (a_rem a - tm) (a_in a + (p_in p + h_shxPump h) * tm) (a_out a + p_out p * tm) (a_cop a + p_cop p * tm)).
  set (k := bind (askHS i shutsOff) (fun off : bool => if off then ret a' else extLoopSP fuel mf i ext setT a')).
  destruct (tail_run mf i ext h w (fun w1 => w_condIn w1 + T0 * tm) (fun w1 => w_condOut w1 + setT * tm) (fun Ts1 => shiftUp fs setT o cnt Ts1)
              (fun w1 => w_extVol w1 + fs * t_nodeVol (w_tank w1)) k HC) as (w' & C' & L' & P' & Q' & M' & EK).
  { intros. apply shiftUp_length. }
  fold Ts in M'. pose proof (mixed_strat _ _ HS M') as ET. exists w', a'. splits; auto; [cbn [a' a_rem]; lra|].
  intros Eoff. cbn [extLoopSP]. unfold bind at 1, getHS at 1.
  rewrite Hnth. unfold bind at 1, get at 1. unfold numNodes. fold Ts. rewrite EP. cbv zeta. gn. fold T0. unfold bind at 1, lift at 1. rewrite Ep.
  unfold W_TO_KW, sec_per_min. num_simpl. rewrite (proj2 (Rleb_false (setT - T0) 0)) by lra. fold cap nh.
  set (fn := if Rltb cap nh then (cap / nh, cap) else (1, nh)).
  assert (Hfn : fs < fst fn). { unfold fn. destruct (Rltb cap nh); cbn [fst]; [|lra]. apply (Rmult_lt_reg_r nh); auto. unfold Rdiv. rewrite Rmult_assoc, Rinv_l by lra. lra. }
  destruct fn as [f1 n1]. cbn [fst] in Hfn. unfold bind at 1, lift at 1. rewrite EF. rewrite (proj2 (Rltb_true _ _) Hfn). rewrite (proj2 (Rltb_true _ _) Hcap).
  fold tm. rewrite (proj2 (Rltb_true _ _) Hrem). fold a' k.
  etransitivity; [exact EK|]. unfold k, askHS, bind, getHS, get, lift. rewrite (ec_nth _ _ _ _ _ C'). rewrite Eoff. reflexivity.
Qed.
