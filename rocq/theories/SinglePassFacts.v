(** Proofs of the theorems stated in PropsSinglePass.v: Properties of the heating loop of single-pass external condensers *)

From Coq Require Import ZArith String List Bool Reals Lra Lia Floats.
From Verif Require Import Num FNum Base Units Utils Types TankM Logic HeatSrc Step Spec SpecState SpecDist SpecEnergy SpecStep SpecExt.
From Verif Require Import RList FrameProofs SimFrame MixProofs DrawProofs TankProofs StandbyProofs HeatProofs ControlProofs SeqProofs.
From Verif Require Import DistProofs EnergyProofs ExtProofs StepEnergy AvgProofs Progress StepProgress ExtProgress SPProgress EnergyFacts Example.
Import ListNotations.
Local Open Scope R_scope.
Lemma C100_single_pass_completes_fact : forall fuel i air lo (D : R -> Prop) h m (w : hpwh R),
  h_config h = External -> h_multipass h = false -> wholeHeight (length (t_Ts (w_tank w))) h ->
  (12 <= length (t_Ts (w_tank w)))%nat -> Forall stopsHot (h_shutOff h) ->
  (forall (v : hpwh R) cond, D cond -> exists p, getPerformance v h air cond = Ok p /\ 0 < p_out p) ->
  (forall c, lo <= c <= w_setpoint w -> D c) ->
  wf_tank (w_tank w) -> stratified (t_Ts (w_tank w)) -> within lo (w_setpoint w) (t_Ts (w_tank w)) ->
  w_setpoint w <= h_maxSet h -> nth_error (w_hs w) i = Some h -> socReady w -> 0 <= m ->
  (length (t_Ts (w_tank w)) * length (t_Ts (w_tank w)) < fuel)%nat ->
  passes (length (t_Ts (w_tank w))) (w_setpoint w) lo <= INR fuel ->
  exists w', addHeatCond fuel i air m w = (Ok tt, w').
Proof.
  intros fuel i air lo D h m w Hc Hmp [Ho Hi] Hn Hgt HP HD Hwf HS HW Hmax Hnth Hsoc Hm Hf Hb.
  assert (HC : spCan fuel i air lo h w).
  { constructor; auto. constructor; auto. eapply Forall_impl; [|exact Hgt]. intros l. apply stopsHot_ready. }
  destruct (addHeatExternal_succ fuel i air lo D h m w HP HD HC Hmax Hm Hb) as (r & w1 & E).
  eapply cond_ext_run; eauto. unfold extCall. rewrite Hmp. exact E.
Qed.

(** ** Loops that never end *)

Lemma avgd_Ts d (t t' : tank R) : t_Ts t' = t_Ts t -> averageT_distribution d t' = averageT_distribution d t.
Proof. intros E. unfold averageT_distribution, averageT_wdist, numNodes. rewrite E. reflexivity. Qed.

Lemma cond_stuck fuel air i m h (w : hpwh R) : nth_error (w_hs w) i = Some h -> h_config h = External -> h_multipass h = false -> w_setpoint w <= h_maxSet h ->
  fst (extLoopSP fuel fuel i air (w_setpoint w) (mkacc m 0 0 0) w) = NoFuel -> fst (addHeatCond fuel i air m w) = NoFuel.
Proof.
  intros Hn Hc Hmp Hmax E. unfold addHeatCond. unfold bind at 1, getHS at 1. rewrite Hn, Hc, Hmp.
  unfold bind at 1. unfold addHeatExternal. unfold bind at 1, getHS at 1. rewrite Hn. unfold bind at 1, get at 1.
  assert (Emin : nmin (h_maxSet h) (w_setpoint w) = w_setpoint w). { unfold nmin. num_simpl. destruct (Rltb _ _) eqn:EQ; bcase; lra. }
  rewrite Emin. unfold bind at 1. num_simpl. destruct (extLoopSP _ _ _ _ _ _ _) as [o w1]. cbn [fst] in E. subst o. reflexivity.
Qed.
Lemma shiftUp_zero target : forall cnt k (Ts : list R), (k + cnt <= length Ts)%nat -> shiftUp 0 target k cnt Ts = Ts.
Proof.
  intros cnt k Ts Hk. apply list_eq_node; [apply shiftUp_length|]. intros j _. rewrite shiftUp_node by auto.
  destruct (Nat.leb k j && Nat.ltb j (k + cnt))%bool; [|reflexivity]. ring.
Qed.

Lemma C100_less_than_never_ends_fact : forall fuel i air h m (w : hpwh R) nm d dp a y s v,
  h_config h = External -> h_multipass h = false -> (0 <= h_extOut h <= h_extIn h)%Z -> (h_extIn h < Z.of_nat (length (t_Ts (w_tank w))))%Z ->
  (forall u : hpwh R, exists p, getPerformance u h air (node (t_Ts (w_tank w)) (Z.to_nat (h_extOut h))) = Ok p /\ 0 < p_out p) ->
  wf_tank (w_tank w) -> stratified (t_Ts (w_tank w)) -> node (t_Ts (w_tank w)) (Z.to_nat (h_extOut h)) < w_setpoint w ->
  w_setpoint w <= h_maxSet h -> nth_error (w_hs w) i = Some h -> socReady w -> 0 < m ->
  (length (t_Ts (w_tank w)) * length (t_Ts (w_tank w)) < fuel)%nat ->
  h_shutOff h = [TempLogic nm d dp a CLess y s] -> (d_type d = DWeighted -> goodDist (d_w d)) ->
  averageT_distribution d (w_tank w) = Ok v ->
  (let c := if a then dp else w_setpoint w - dp in c <= v < c + 1 / 10000) ->
  fst (addHeatCond fuel i air m w) = NoFuel.
Proof.
  intros fuel i air h m w nm d dp a y s v Hc Hmp Hp HX HP Hwf HS HT Hmax Hn Hsoc Hm Hf Hsh HG Hv Hcv.
  apply (cond_stuck fuel air i m h); auto.
  set (Ts := t_Ts (w_tank w)) in *. set (sp := w_setpoint w) in *.
  assert (EP : exists cnt, extPorts (length Ts) h = Some (Z.to_nat (h_extOut h), cnt)).
  { unfold extPorts. replace ((0 <=? h_extOut h)%Z && (h_extOut h <? Z.of_nat (length Ts))%Z)%bool with true.
    2:{ symmetry. apply andb_true_iff. split; [apply Z.leb_le|apply Z.ltb_lt]; lia. }
    destruct (Z.leb (h_extOut h) (h_extIn h)); eauto. replace (Z.ltb _ _) with true by (symmetry; apply Z.ltb_lt; lia). eauto. }
  destruct EP as [cnt EP]. pose proof (extPorts_spec _ _ _ _ EP (proj2 Hp)) as [Hcn Hoc].
  assert (HC : extCan fuel i air h w).
  { constructor; auto. rewrite Hsh. apply Forall_cons; [|apply Forall_nil]. exact HG. }
  assert (HL : forall mf fuel' (u : hpwh R) acc, extCan mf i air h u -> t_Ts (w_tank u) = Ts -> w_setpoint u = sp -> 0 < a_rem acc ->
            fst (extLoopSP fuel' mf i air sp acc u) = NoFuel).
  { clear HC Hf. intros mf. induction fuel' as [|fuel' IH]; intros u acc HC HTs Hsp Hr; [reflexivity|].
    destruct (HP u) as (p & Ep & Hpo).
    set (lg := TempLogic nm d dp a CLess y s).
    assert (EV : forall u' : hpwh R, t_Ts (w_tank u') = Ts -> l_tankValue u' lg = Ok v).
    { intros u' HT'. cbn [l_tankValue lg]. rewrite <- Hv. apply avgd_Ts. exact HT'. }
    set (c := if a then dp else sp - dp) in *. cbv zeta in Hcv.
    assert (EC : forall u' : hpwh R, w_setpoint u' = sp -> l_comparison u' lg = c) by (intros u' H'; cbn [l_comparison lg]; num_simpl; rewrite H'; reflexivity).
    assert (Hoff : forall u' : hpwh R, t_Ts (w_tank u') = Ts -> w_setpoint u' = sp -> shutsOff u' h = Ok false).
    { intros u' HT' Hs'. unfold shutsOff. rewrite HT', Hsh. destruct Ts as [|x r] eqn:ET; [cbn in HX; lia|]. num_simpl.
      assert (Hx : x < sp).
      { assert (node (x :: r) 0 <= node (x :: r) (Z.to_nat (h_extOut h))) by (apply stratified_le; auto; lia). change (node (x :: r) 0) with x in H. lra. }
      rewrite Hs'. rewrite (proj2 (Rleb_false _ _)) by lra. cbn [anyMet]. fold lg. unfold l_met. rewrite EV by auto. cbn [obind]. rewrite EC by auto.
      unfold lg. cbn [l_cmp compare]. num_simpl. rewrite (proj2 (Rltb_false _ _)) by lra. reflexivity. }
    assert (EF : fractToMeet u h = Ok 0).
    { unfold fractToMeet. rewrite Hsh. cbn [fractLoop]. fold lg. cbn [l_fract lg].
      destruct (temp_value u nm d dp a CLess y s) as (f & l & avg & E1 & _ & E2); auto; [rewrite HTs; lia|].
      rewrite (EV u HTs : l_tankValue u (TempLogic nm d dp a CLess y s) = Ok v) in E1. inversion E1; subst avg. rewrite (E2 lg). cbv zeta. rewrite (EC u Hsp). unfold lg. cbn [l_cmp compare]. num_simpl.
      rewrite tol_val. rewrite (proj2 (Rltb_true _ _)) by lra. cbn [obind]. rewrite Rmult_0_r.
      rewrite (proj2 (Rltb_true 0 1)) by lra. reflexivity. }
    destruct (extLoopSP_limited mf i air sp h fuel' u acc (Z.to_nat (h_extOut h)) cnt p 0) as (u' & acc' & C' & P' & _ & T' & R' & E'); rewrite ?HTs; auto; try lra.
    - rewrite Rmult_0_l. apply Rmult_lt_0_compat; lra.
    - rewrite shiftUp_zero; auto.
    - rewrite HTs, shiftUp_zero in T' by auto. rewrite E' by (apply Hoff; congruence). apply IH; auto; [congruence|].
      rewrite Rmult_0_l in R'. assert (Hq : 0 < p_out p / 1000 * 60) by lra. destruct (Rlt_dec 0 (a_rem acc')); auto. nra. }
  apply HL; auto.
Qed.
Definition exSP (n : nat) (off : logic R) : hsrc R :=
  set_h_config External (set_h_extIn (Z.of_nat n - 1) (set_h_extOut 0 (exHS TCompressor false None exLower [exOn exLower 5] [off] 0))).
Definition exSPUnit (off : logic R) (Ts : list R) : hpwh R :=
  set_w_compIx 0 (set_w_lowIx (-1) (set_w_vipIx (-1) (set_w_hs [exSP (length Ts) off] (exUnit Ts)))).
Lemma exSP_perf n off (w : hpwh R) air cond : getPerformance w (exSP n off) air cond = Ok (mkperf 500 1500 3).
Proof.
  unfold getPerformance, exSP. cbn [exHS h_shxCold h_rdPwr h_rdLift h_rdBelow h_eval h_inScale h_copScale h_doDefrost obind h_airflow
     set_h_config set_h_extIn set_h_extOut].
  num_simpl. unfold nneqb. num_simpl. destruct (Reqb' 1 1) eqn:E1; bcase; [|lra]. cbn [negb p_in p_cop p_out].
  replace (Rltb 0 0) with false by (symmetry; apply Rltb_false; lra). cbn [andb]. repeat f_equal; lra.
Qed.
Lemma repeat_strat x n : stratified (repeat x n).
Proof.
  intros k Hk. assert (HX : forall j, (j < length (repeat x n))%nat -> node (repeat x n) j = x) by (intros j Hj; apply (repeat_spec n), node_In; auto).
  rewrite !HX by lia. lra.
Qed.
Lemma C100_less_than_example_fact : forall fuel, (144 < fuel)%nat ->
  fst (addHeatCond fuel 0 20 1 (exSPUnit (TempLogic "off" (mkdist DBottom []) 40 true CLess false false) (repeat 40 12))) = NoFuel.
Proof.
  intros fuel Hf. set (off := TempLogic _ _ _ _ _ _ _).
  apply (C100_less_than_never_ends_fact fuel 0 20 (exSP 12 off) 1 _ "off" (mkdist DBottom []) 40 true false false 40); try reflexivity; try (cbn; lia); try lra.
  - intros u. eexists. split; [apply exSP_perf|]. cbn. lra.
  - apply exUnit_wf. cbn. lia.
  - apply (repeat_strat 40 12).
  - cbn. num_simpl. lra.
  - cbn. num_simpl. lra.
  - intros HX. discriminate HX.
  - intros HX. discriminate HX.
Qed.

(** Further above the value the fraction is negative: in double arithmetic a condenser that runs for a minute on a tank
    at 45 C cools it below 42 C, reports a run time of minus 33 minutes and a positive output. *)
Definition exSPF (off : logic float) : hsrc float :=
  set_h_config External (set_h_extIn 23 (set_h_extOut 0 (exHS TCompressor false None exLower [exOn exLower (fofZ 5)] [off] 0))).
Definition exSPFUnit (off : logic float) (Ts : list float) : hpwh float :=
  set_w_compIx 0 (set_w_lowIx (-1) (set_w_vipIx (-1) (set_w_hs [exSPF off] (exUnit Ts)))).
Lemma C100_single_pass_heats_refuted_fact : exists (w w' : hpwh float) h,
  addHeatCond 1000 0 (fofZ 20) (fofZ 1) w = (Ok tt, w') /\ nth_error (w_hs w') 0 = Some h /\
  nltb (Num:=FNum) (h_runtime h) (fofZ (-33)) = true /\ nltb (Num:=FNum) (fofZ 28) (h_eOut h) = true /\
  forallb (fun x => nleb (Num:=FNum) (fofZ 44) x) (t_Ts (w_tank w)) = true /\
  forallb (fun x => nltb (Num:=FNum) x (fofZ 42)) (t_Ts (w_tank w')) = true.
Proof.
  exists (exSPFUnit (TempLogic "off" (mkdist DBottom []) (fofZ 40) true CLess false false) (fofZ 44 :: repeat (fofZ 45) 23)).
  eexists _, _. split; [vm_compute; reflexivity|]. split; [vm_compute; reflexivity|]. split; [vm_compute; reflexivity|].
  split; [vm_compute; reflexivity|]. split; vm_compute; reflexivity.
Qed.

Lemma C100_few_nodes_never_end_fact : forall fuel i air h m (w : hpwh R) nm d dp a y s P,
  h_config h = External -> h_multipass h = false -> wholeHeight (length (t_Ts (w_tank w))) h ->
  (2 <= length (t_Ts (w_tank w)) < 12)%nat ->
  (forall (u : hpwh R) cond, exists p, getPerformance u h air cond = Ok p /\ P <= p_out p) -> 0 < P ->
  wf_tank (w_tank w) -> node (t_Ts (w_tank w)) 0 < w_setpoint w ->
  (forall k, (0 < k < length (t_Ts (w_tank w)))%nat -> node (t_Ts (w_tank w)) k = w_setpoint w) ->
  w_setpoint w <= h_maxSet h -> nth_error (w_hs w) i = Some h -> socReady w ->
  t_nodeCp (w_tank w) * (w_setpoint w - node (t_Ts (w_tank w)) 0) < P / 1000 * (m * 60) ->
  (length (t_Ts (w_tank w)) * length (t_Ts (w_tank w)) < fuel)%nat ->
  h_shutOff h = [TempLogic nm d dp a CGreater y s] -> d_type d = DTop -> w_setpoint w <= (if a then dp else w_setpoint w - dp) ->
  fst (addHeatCond fuel i air m w) = NoFuel.
Proof.
  intros fuel i air h m w nm d dp a y s P Hc Hmp [Ho Hi] Hn HP HP0 Hwf HT0 HTk Hmax Hnth Hsoc Hm Hf Hsh Hd Hcv.
  apply (cond_stuck fuel air i m h); auto.
  set (n := length (t_Ts (w_tank w))) in *. set (sp := w_setpoint w) in *. set (c := if a then dp else sp - dp) in *.
  set (lg := TempLogic nm d dp a CGreater y s) in *.
  assert (EP : extPorts n h = Some (0%nat, n)).
  { unfold extPorts. rewrite Ho, Hi. 
    replace ((0 <=? 0)%Z && (0 <? Z.of_nat n)%Z)%bool with true by (symmetry; apply andb_true_iff; split; [reflexivity|apply Z.ltb_lt; lia]).
    replace (Z.leb 0 (Z.of_nat n - 1)) with true by (symmetry; apply Z.leb_le; lia).
    replace (Z.ltb _ _) with true by (symmetry; apply Z.ltb_lt; lia). repeat f_equal. lia. }
  assert (HC : extCan fuel i air h w).
  { constructor; auto. rewrite Hsh. apply Forall_cons; [|apply Forall_nil]. cbn. congruence. }
  set (q := INR n / 12).
  assert (Hq : 0 < q < 1).
  { destruct Hn as [N1 N2]. apply (le_INR 2) in N1. apply lt_INR in N2. assert (E12 : INR 12 = 12) by (cbn; lra). rewrite E12 in N2. cbn in N1. unfold q. lra. }
  set (shape := fun u : hpwh R => length (t_Ts (w_tank u)) = n /\ node (t_Ts (w_tank u)) 0 < sp /\ forall k, (0 < k < n)%nat -> node (t_Ts (w_tank u)) k = sp).
  assert (HL : forall mf fuel' (u : hpwh R) acc, extCan mf i air h u -> shape u -> w_setpoint u = sp ->
            t_nodeCp (w_tank u) * (sp - node (t_Ts (w_tank u)) 0) < P / 1000 * (a_rem acc * 60) ->
            fst (extLoopSP fuel' mf i air sp acc u) = NoFuel).
  { clear HC Hf Hm HT0 HTk Hwf Hnth Hsoc. intros mf. induction fuel' as [|fuel' IH]; intros u acc HC (HL & H0 & Hk) Hsp Hr; [reflexivity|].
    pose proof (wf_nodeCp_pos _ (ec_wf _ _ _ _ _ HC)) as Hcp.
    set (T0 := node (t_Ts (w_tank u)) 0) in *. set (cp := t_nodeCp (w_tank u)) in *.
    assert (Hnh : 0 < cp * (sp - T0)) by (apply Rmult_lt_0_compat; lra).
    assert (Hrem : 0 < a_rem acc). { destruct (Rlt_dec 0 (a_rem acc)); auto. nra. }
    destruct (HP u T0) as (p & Ep & Hpo).
    assert (EV : forall u' : hpwh R, shape u' -> l_tankValue u' lg = Ok sp).
    { intros u' (L' & _ & K'). cbn [l_tankValue lg]. unfold averageT_distribution. rewrite Hd. destruct (t_Ts (w_tank u')) as [|x r] eqn:ET; [cbn in L'; lia|].
      f_equal. num_simpl. rewrite (last_nth_R (x :: r)). rewrite L'. apply K'. lia. }
    assert (EC : forall u' : hpwh R, w_setpoint u' = sp -> l_comparison u' lg = c) by (intros u' H'; cbn [l_comparison lg]; num_simpl; rewrite H'; reflexivity).
    assert (Hoff : forall u' : hpwh R, shape u' -> w_setpoint u' = sp -> shutsOff u' h = Ok false).
    { intros u' S' Hs'. pose proof S' as (L' & X' & _). unfold shutsOff. rewrite Hsh. destruct (t_Ts (w_tank u')) as [|x r] eqn:ET; [cbn in L'; lia|]. num_simpl.
      assert (Hx : x < sp) by exact X'.
      rewrite Hs'. rewrite (proj2 (Rleb_false _ _)) by lra. cbn [anyMet]. unfold l_met. rewrite (EV u' S'). cbn [obind]. rewrite EC by auto.
      unfold lg. cbn [l_cmp compare]. num_simpl. rewrite (proj2 (Rltb_false _ _)) by lra. reflexivity. }
    assert (EF : fractToMeet u h = Ok q).
    { unfold fractToMeet. rewrite Hsh. cbn [fractLoop]. cbn [l_fract lg]. unfold temp_fract, numNodes. fold lg. rewrite HL, Hd.
      assert (EM : forall X (A B : outc X), match t_Ts (w_tank u) with [] => A | _ :: _ => B end = B) by (intros; destruct (t_Ts (w_tank u)); [cbn in HL; lia|reflexivity]).
      rewrite EM. cbv zeta. rewrite (EC u Hsp), Hsp. gn. rewrite (Hk (n - 1)%nat) by lia. rewrite Nat.ltb_irrefl. num_simpl. unfold lg. cbn [l_cmp compare]. num_simpl.
      rewrite tol_val. rewrite (proj2 (Rltb_false _ _)) by lra. rewrite (proj2 (Rltb_false 0 (sp - sp))) by lra.
      rewrite !nofN_R. assert (E12 : INR LOGIC_SIZE = 12) by (unfold LOGIC_SIZE; cbn; lra). rewrite E12, Rmult_1_r. cbn [obind]. fold q.
      rewrite (proj2 (Rltb_true q 1)) by lra. reflexivity. }
    set (Ts' := shiftUp q sp 0 n (t_Ts (w_tank u))).
    assert (HN : forall j, (j < n)%nat -> node Ts' j = (1 - q) * node (t_Ts (w_tank u)) j + q * sp).
    { intros j Hj. unfold Ts'. rewrite shiftUp_node by lia. cbn [Nat.leb Nat.add andb]. replace (Nat.ltb j n) with true by (symmetry; apply Nat.ltb_lt; auto).
      destruct (Nat.eqb_spec (S j) n); auto. rewrite (Hk (S j)) by lia. reflexivity. }
    assert (LT : length Ts' = n) by (unfold Ts'; rewrite shiftUp_length; auto).
    assert (S' : forall u' : hpwh R, t_Ts (w_tank u') = Ts' -> shape u').
    { intros u' E. unfold shape. rewrite E. split; [auto|]. split.
      - rewrite HN by lia. fold T0. nra.
      - intros k K. rewrite HN by lia. rewrite Hk by lia. ring. }
    destruct (extLoopSP_limited mf i air sp h fuel' u acc 0 n p q) as (u' & acc' & C' & P' & Q' & T' & R' & E'); rewrite ?HL; auto; try lra.
    - fold T0 cp. apply Rlt_le_trans with (P / 1000 * (a_rem acc * 60)); [|apply Rmult_le_compat_r; lra]. nra.
    - fold Ts'. intros j Hj. rewrite LT in Hj. rewrite !HN by lia. assert (node (t_Ts (w_tank u)) j <= node (t_Ts (w_tank u)) (S j)); [|nra].
      rewrite (Hk (S j)) by lia. destruct j; [fold T0; lra|rewrite Hk by lia; lra].
    - fold Ts' in T'. fold T0 cp in R'. rewrite E' by (apply Hoff; [auto|congruence]). apply IH; auto; [congruence|].
      fold cp in Q'. rewrite Q', T', HN by lia. fold T0.
      assert (Hd1 : P / 1000 * 60 * (a_rem acc - a_rem acc') <= q * (cp * (sp - T0))).
      { assert (Hx : p_out p / 1000 * 60 * (a_rem acc - a_rem acc') = q * (cp * (sp - T0))) by lra.
        assert (Hy : 0 < p_out p / 1000 * 60) by lra. assert (Hz : 0 <= a_rem acc - a_rem acc').
        { destruct (Rle_dec 0 (a_rem acc - a_rem acc')); auto. assert (0 < q * (cp * (sp - T0))) by (apply Rmult_lt_0_compat; lra). nra. }
        rewrite <- Hx. apply Rmult_le_compat_r; auto. lra. }
      lra. }
  apply HL; auto. unfold shape. auto.
Qed.
Lemma C100_few_nodes_example_fact : forall fuel, (4 < fuel)%nat ->
  fst (addHeatCond fuel 0 20 200 (exSPUnit (TempLogic "off" (mkdist DTop []) 60 true CGreater false false) [45; 55])) = NoFuel.
Proof.
  intros fuel Hf. set (off := TempLogic _ _ _ _ _ _ _).
  apply (C100_few_nodes_never_end_fact fuel 0 20 (exSP 2 off) 200 _ "off" (mkdist DTop []) 60 true false false 1500); try reflexivity; try (cbn; lia); try lra.
  - split; reflexivity.
  - intros u c. eexists. split; [apply exSP_perf|]. cbn. lra.
  - apply exUnit_wf. cbn. lia.
  - cbn. num_simpl. lra.
  - intros k Hk. cbn in Hk. assert (k = 1)%nat as -> by lia. reflexivity.
  - cbn. num_simpl. lra.
  - intros HX. discriminate HX.
  - cbn. num_simpl. unfold CPWATER, DENSITYWATER, dec. num_simpl. unfold nofN. num_simpl. cbn. lra.
  - cbn. num_simpl. lra.
Qed.
Lemma nat_above (x : R) : exists k, x < INR k.
Proof.
  exists (Z.to_nat (up x)). destruct (archimed x) as [HA _]. destruct (Z_lt_le_dec (up x) 0) as [HZ|HZ].
  - apply IZR_lt in HZ. pose proof (pos_INR (Z.to_nat (up x))). lra.
  - rewrite INR_IZR_INZ, Z2Nat.id by auto. lra.
Qed.
Lemma C100_example_fact : exists fuel w', addHeatCond fuel 0 20 60 (exSPUnit (exOff 60) (repeat 20 24)) = (Ok tt, w').
Proof.
  destruct (nat_above (passes 24 55 20 + INR 577)) as [fuel Hf]. exists fuel.
  assert (Hpos : 0 < passes 24 55 20). { unfold passes. assert (0 <= INR 24) by apply pos_INR. nra. }
  apply (C100_single_pass_completes_fact fuel 0 20 20 (fun _ => True) (exSP 24 (exOff 60))); try reflexivity; auto; try lra.
  - split; reflexivity.
  - cbn. lia.
  - apply Forall_cons; [|apply Forall_nil]. split; [reflexivity|discriminate].
  - intros u c _. eexists. split; [apply exSP_perf|]. cbn. lra.
  - apply exUnit_wf. cbn. lia.
  - apply (repeat_strat 20 24).
  - intros x Hx. apply repeat_spec in Hx. subst x. cbn. num_simpl. lra.
  - cbn. num_simpl. lra.
  - intros HX. discriminate HX.
  - change (24 * 24 < fuel)%nat. apply INR_lt. apply Rlt_trans with (INR 577); [apply lt_INR; lia|lra].
  - change (passes 24 55 20 <= INR fuel). pose proof (pos_INR 577). lra.
Qed.
