(** Proofs of the theorems stated in PropsInitGen.v: Properties of the procedure that sets up a generic heat-pump water heater *)

From Coq Require Import ZArith String List Bool Reals Lra Lia Floats Sorting.Sorted.
From Verif Require Import Num FNum Base Units Utils Types TankM Logic HeatSrc Step Setters Config Perf Rating Fitter DataModel Init Spec SpecState SpecDist SpecEnergy SpecStep.
From Verif Require Import RList FrameProofs SimFrame MixProofs DistProofs TankFacts ControlProofs SeqProofs WholeStep Progress StepProgress EnergyFacts SettersFacts SourcesFacts ConfigFacts PerfFacts InitsFacts Example.
Import ListNotations.
Local Open Scope R_scope.
(** ** How the procedure runs *)
(** the sources before the derived values are computed *)
Definition genSources (jt jb jc : hsrc R) (resUse : R) (s : list (@polyPt R)) : list (hsrc R) :=
  [set_h_followed (Some 1%nat) (genericTop resUse jt); set_h_followed (Some 2%nat) (set_h_backup (Some 2%nat) (genericBottom jb));
   set_h_backup (Some 1%nat) (set_h_eval (polyFun s) (genericCompressor jc))].
(** the performance map of the generic unit with COPs multiplied and input powers divided by [f] *)
Definition scaledMap (f : R) : list (@polyPt R) :=
  [mkpoly 50 [187064124 / 1000000 / f; 1939747 / 1000000 / f; 0 / f] [54977772 / 10000000 * f; -243008 / 10000000 * f; 0 * f];
   mkpoly 70 [1480418 / 10000 / f; 2553291 / 1000000 / f; 0 / f] [7207307 / 1000000 * f; -335265 / 10000000 * f; 0 * f]].
Lemma fudge_form EF : genericFudge (T:=R) EF = (EF + 192 / 100) * (25 / 140).
Proof. unfold genericFudge, dec. num_simpl. field. Qed.
Lemma scale_ok f : f <> 0 -> scalePolys f (genericBase (T:=R)) = Ok (scaledMap f).
Proof.
  intros HF. unfold genericBase, scalePolys, scalePoly, div_chk, dec. cbn [pp_in pp_cop pp_T map divAll]. unfold div_chk. num_simpl.
  replace (Reqb' f 0) with false by (symmetry; apply Reqb'_false; auto). reflexivity.
Qed.
Lemma scale_zero : exists m, scalePolys 0 (genericBase (T:=R)) = UB m.
Proof.
  unfold genericBase, scalePolys, scalePoly, div_chk, dec. cbn [pp_in pp_cop pp_T map divAll]. unfold div_chk. num_simpl.
  replace (Reqb' 0 0) with true by (symmetry; apply Reqb'_true; auto). cbn. eauto.
Qed.
Definition igStart (u : hpwh R) : hpwh R :=
  set_w_doDepress false (set_w_tank (set_t_mixesOnDraw true (set_t_fixed false (set_t_Ts (map (fun _ => F_TO_C 127) (t_Ts (setNumNodes 12 (w_tank u)))) (setNumNodes 12 (w_tank u))))) (set_w_setpoint (F_TO_C 127) u)).
Definition igBody (jt jb jc : hsrc R) (vol EF resUse : R) (u : hpwh R) : outc unit * hpwh R :=
  bind (modify (fun w => set_w_setpoint (F_TO_C 127) (set_w_tank (setNumNodes 12 (w_tank w)) w))) (fun _ =>
  bind resetTankToSetpoint (fun _ =>
  bind (modify (fun w => set_w_doDepress false (set_w_tank (set_t_mixesOnDraw true (set_t_fixed false (w_tank w))) w))) (fun _ =>
  bind (modify (set_w_hs [genericTop resUse jt; genericBottom jb; genericCompressor jc])) (fun _ =>
  bind (setTankSize vol U_L false) (fun _ => bind (setTankUA (genericUA vol)) (fun _ =>
  bind (lift (scalePolys (genericFudge EF) genericBase)) (fun s =>
  bind (modify (set_w_hs (genSources jt jb jc resUse s))) (fun _ => finishInit)))))))) u.
Lemma ig_unfold jt jb jc vol EF resUse w : initGeneric jt jb jc vol EF resUse w = igBody jt jb jc vol EF resUse (set_w_hs [] (setAllDefaults w)).
Proof. reflexivity. Qed.
Lemma start_run (u : hpwh R) (k : hpwh R -> outc unit * hpwh R) :
  bind (modify (fun w => set_w_setpoint (F_TO_C 127) (set_w_tank (setNumNodes 12 (w_tank w)) w))) (fun _ =>
  bind resetTankToSetpoint (fun _ =>
  bind (modify (fun w => set_w_doDepress false (set_w_tank (set_t_mixesOnDraw true (set_t_fixed false (w_tank w))) w))) (fun _ => k))) u = k (igStart u).
Proof.
  erewrite bind_ok by apply modify_ok. erewrite bind_ok by apply reset_ok. erewrite bind_ok by apply modify_ok. f_equal.
Qed.
Lemma igStart_fresh vol ua (w : hpwh R) hs : let u := set_w_hs hs (igStart (setAllDefaults w)) in
  freshUnit vol ua hs (set_w_tank (set_t_UA ua (calcSizeConstants (calcSizeConstants (set_t_volume vol (w_tank u))))) u).
Proof.
  cbv zeta. rewrite size_idem, size_form. unfold sized. cbv zeta. generalize (tankRadius_m (t_volume (set_t_volume vol (w_tank (set_w_hs hs (igStart (setAllDefaults w))))))). intros rad. generalize (npow (Num:=RNum)). intros pw.
  unfold igStart, putSize, setAllDefaults, tankDefaults, stepLength, setNumNodes.
  constructor; wsimpl; auto; unfold sec_per_min, min_per_hr, UNINITIALIZED_LOCATIONTEMP, dec; num_simpl; splits; try reflexivity; try field.
Qed.

Lemma gen_run jt jb jc vol EF resUse (w : hpwh R) : 0 < vol -> EF <> -192 / 100 ->
  exists v, freshUnit vol (genericUA vol) (genSources jt jb jc resUse (scaledMap (genericFudge EF))) v /\ initGeneric jt jb jc vol EF resUse w = finishInit v.
Proof.
  intros HV HE. assert (HF : genericFudge EF <> 0) by (rewrite fudge_form; intros HX; lra).
  rewrite ig_unfold, defaults_hs. unfold igBody. rewrite start_run. erewrite bind_ok by apply modify_ok.
  pose proof (igStart_fresh vol (genericUA vol) w [genericTop resUse jt; genericBottom jb; genericCompressor jc]) as HK. cbv zeta in HK.
  assert (HX : t_fixed (w_tank (igStart (setAllDefaults w))) = false) by reflexivity.
  generalize dependent (igStart (setAllDefaults w)). intros u HK HX.
  erewrite bind_ok by (apply size_ok; [auto|exact HX]).
  erewrite bind_ok by apply modify_ok. rewrite (scale_ok _ HF). erewrite bind_ok by reflexivity. erewrite bind_ok by apply modify_ok.
  generalize dependent (genSources jt jb jc resUse (scaledMap (genericFudge EF))). intros hs.
  generalize dependent [genericTop resUse jt; genericBottom jb; genericCompressor jc]. intros l HK.
  eexists. split; [|reflexivity]. wsimpl_in HK. wsimpl.
  generalize dependent (calcSizeConstants (calcSizeConstants (set_t_volume vol (w_tank u)))). intros t HK.
  destruct HK as [A1 A2 A3 A4 A5 A6 A7 A8 A9 A10 A11 A12 A13 A14 A15 A16 A17 A18]. constructor; wsimpl; auto.
Qed.
Lemma gen_err jt jb jc vol EF resUse (w : hpwh R) : vol <= 0 ->
  exists e w', initGeneric jt jb jc vol EF resUse w = (Err e, w') /\ w_hs w' = [genericTop resUse jt; genericBottom jb; genericCompressor jc] /\ w_compIx w' = w_compIx w /\ t_volume (w_tank w') = t_volume (w_tank w).
Proof.
  intros HV. rewrite ig_unfold, defaults_hs. unfold igBody. rewrite start_run. erewrite bind_ok by apply modify_ok.
  assert (HX : t_fixed (w_tank (igStart (setAllDefaults w))) = false) by reflexivity.
  assert (HY : w_compIx (igStart (setAllDefaults w)) = w_compIx w) by (destruct w; reflexivity).
  assert (HZ : t_volume (w_tank (igStart (setAllDefaults w))) = t_volume (w_tank w)) by (destruct w; reflexivity).
  generalize dependent (igStart (setAllDefaults w)). intros u HX HY HZ.
  eexists _, _. split; [apply bind_err, size_err; auto|]. generalize [genericTop resUse jt; genericBottom jb; genericCompressor jc]. intros l. wsimpl. auto.
Qed.

(** ** The sources *)
Lemma fresh_comp j : let h := freshCond (T:=R) j in h_type h = TCompressor /\ h_on h = false /\ h_turnOn h = [] /\ h_shutOff h = [] /\ h_standby h = None /\
  h_backup h = None /\ h_companion h = None /\ h_followed h = None /\ h_airflow h = 1 /\ h_mlAir h = -27315 / 100 /\ h_doDefrost h = false /\ h_shxPump h = 0 /\ h_shxCold h = 0 /\
  h_inScale h = 1 /\ h_copScale h = 1 /\ h_rdPwr h = 0 /\ h_shxHot h = 0.
Proof. unfold freshCond, freshHS. wsimpl. unfold dec. num_simpl. splits; reflexivity. Qed.
Record genTop (resUse : R) (h : hsrc R) : Prop := {
  gt_type : h_type h = TResistance; gt_config : h_config h = Wrapped; gt_on : h_on h = false; gt_power : h_power h = 45 / 10;
  gt_turnOn : h_turnOn h = [topThird resUse]; gt_off : h_shutOff h = [] /\ h_standby h = None;
  gt_links : h_backup h = None /\ h_companion h = None /\ h_followed h = Some 1%nat; gt_vip : h_vip h = true; gt_dist : goodDist (h_dist h); gt_air : h_airflow h = 1 }.
Record genBottom (h : hsrc R) : Prop := {
  gb_type : h_type h = TResistance; gb_config : h_config h = Wrapped; gb_on : h_on h = false; gb_power : h_power h = 4;
  gb_turnOn : h_turnOn h = []; gb_off : h_shutOff h = [bottomTwelfthMaxTemp (F_TO_C (dec 861111 10000))] /\ h_standby h = None;
  gb_links : h_backup h = Some 2%nat /\ h_companion h = None /\ h_followed h = Some 2%nat; gb_vip : h_vip h = false; gb_dist : goodDist (h_dist h); gb_air : h_airflow h = 1 }.
Record genComp (f : R) (h : hsrc R) : Prop := {
  gc_type : h_type h = TCompressor; gc_config : h_config h = Wrapped; gc_on : h_on h = false;
  gc_turnOn : h_turnOn h = [bottomThird (dF_TO_dC (dec 336883 10000)); standbyTop (dF_TO_dC (dec 12392 1000))]; gc_off : h_shutOff h = [] /\ h_standby h = None;
  gc_links : h_backup h = Some 1%nat /\ h_companion h = None /\ h_followed h = None; gc_vip : h_vip h = false; gc_dist : h_dist h = [(1 / 3, 3); (1, 0)]; gc_air : h_airflow h = 1;
  gc_eval : h_eval h = polyFun (scaledMap f); gc_limits : h_minT h = 65 / 9 /\ h_maxT h = 440 / 9 /\ h_maxSet h = 640 / 9 /\ h_mlAir h = -27315 / 100;
  gc_plain : h_doDefrost h = false /\ h_shxPump h = 0 /\ h_shxCold h = 0 /\ h_inScale h = 1 /\ h_copScale h = 1 /\ h_rdPwr h = 0 /\ h_shxHot h = 0 }.
Lemma bottom_dist : wd_of_nodes [0; dec 2 10; dec 8 10; 0; 0; 0; 0; 0; 0; 0; 0; 0] = [(1 / 12, 0); (2 / 12, 12 * (2 / 10)); (3 / 12, 12 * (8 / 10)); (1, 0)].
Proof.
  unfold wd_of_nodes. cbn [wd_of_nodes_from length]. unfold nneqb, nsum, nofN, dec. cbn [fold_left]. num_simpl. cbn [Z.of_nat Pos.of_succ_nat Pos.succ].
  rewrite (proj2 (Reqb'_false 0 (2 / 10))), (proj2 (Reqb'_false (2 / 10) (8 / 10))), (proj2 (Reqb'_false (8 / 10) 0)), (proj2 (Reqb'_true 0 0)) by lra. cbn [negb].
  repeat (apply (f_equal2 cons); [apply (f_equal2 pair); field|]). reflexivity.
Qed.
Lemma comp_dist : wd_of_nodes [1; 0; 0] = [(1 / 3, 3); (1, 0)].
Proof.
  unfold wd_of_nodes. cbn [wd_of_nodes_from length]. unfold nneqb, nsum, nofN, dec. cbn [fold_left]. num_simpl. cbn [Z.of_nat Pos.of_succ_nat Pos.succ].
  rewrite (proj2 (Reqb'_false 1 0)), (proj2 (Reqb'_true 0 0)) by lra. cbn [negb].
  repeat (apply (f_equal2 cons); [apply (f_equal2 pair); field|]). reflexivity.
Qed.
Lemma bottom_good : goodDist [(1 / 12, 0); (2 / 12, 12 * (2 / 10)); (3 / 12, 12 * (8 / 10)); (1, 0)].
Proof.
  constructor; [discriminate|cbn [ascending]; splits; try lra; exact I|repeat (apply Forall_cons; [cbn [snd]; lra|]); apply Forall_nil|].
  apply Exists_cons_tl, Exists_cons_hd. cbn [snd]. lra.
Qed.
Lemma comp_good : goodDist [(1 / 3, 3); (1, 0)].
Proof.
  constructor; [discriminate|cbn [ascending]; splits; try lra; exact I|repeat (apply Forall_cons; [cbn [snd]; lra|]); apply Forall_nil|].
  apply Exists_cons_hd. cbn [snd]. lra.
Qed.
Lemma gen_top resUse j n : genTop resUse (deriveHS n (set_h_followed (Some 1%nat) (genericTop resUse j))).
Proof.
  destruct (fresh_plain j) as (A1 & A2 & A3 & A4 & A5 & A6 & A7 & A8 & A9 & A10). unfold genericTop. pose proof (setup_good 6 4500 (newElement j) ltac:(lia)) as HG. generalize dependent (newElement j). clear j. intros h A1 A2 A3 A4 A5 A6 A7 A8 A9 A10 HG.
  unfold setupRes in *. wsimpl_in HG. unfold deriveHS. constructor; wsimpl; auto. num_simpl. lra.
Qed.
Lemma gen_bottom j n : genBottom (deriveHS n (set_h_followed (Some 2%nat) (set_h_backup (Some 2%nat) (genericBottom j)))).
Proof.
  destruct (fresh_plain j) as (A1 & A2 & A3 & A4 & A5 & A6 & A7 & A8 & A9 & A10). unfold genericBottom. generalize dependent (newElement j). clear j. intros h A1 A2 A3 A4 A5 A6 A7 A8 A9 A10.
  unfold setupRes in *. unfold deriveHS. pose proof bottom_dist as HB. num_simpl. rewrite HB. constructor; wsimpl; auto; [num_simpl; lra|]. apply bottom_good.
Qed.
Lemma gen_comp f j n : genComp f (deriveHS n (set_h_backup (Some 1%nat) (set_h_eval (polyFun (scaledMap f)) (genericCompressor j)))).
Proof.
  destruct (fresh_comp j) as (A1 & A2 & A3 & A4 & A5 & A6 & A7 & A8 & A9 & A10 & A11 & A12 & A13 & A14 & A15 & A16 & A17). unfold genericCompressor. generalize dependent (freshCond j). clear j. intros h A1 A2 A3 A4 A5 A6 A7 A8 A9 A10 A11 A12 A13 A14 A15 A16 A17.
  unfold deriveHS. pose proof comp_dist as HB. num_simpl. rewrite HB. constructor; wsimpl; auto; [|splits; auto].
  unfold F_TO_C, offsetF, FperC. num_simpl. splits; auto; field.
Qed.

(** ** Performance *)
Definition baseCop (u x : R) : R := lin2 (54977772 / 10000000) (-243008 / 10000000) (7207307 / 1000000) (-335265 / 10000000) u x.
Definition baseIn (u x : R) : R := lin2 (187064124 / 1000000) (1939747 / 1000000) (1480418 / 10000) (2553291 / 1000000) u x.
Lemma scaled_eval f (sp air c : R) : f <> 0 -> let u := 9 / 5 * air + 32 in let x := 9 / 5 * c + 32 in
  polyFun (scaledMap f) sp air c = mkperf (baseIn u x / f) (baseCop u x * baseIn u x) (baseCop u x * f).
Proof.
  intros HF u x. unfold polyFun, polyEval, scaledMap, C_TO_F, offsetF, FperC, linearInterp, dec. num_simpl. unfold dec. num_simpl.
  replace (9 / 5 * air + 32) with u by reflexivity. replace (9 / 5 * c + 32) with x by reflexivity.
  set (L := evalLoop _ _ _ _).
  assert (EL : L = (Some 0%nat, 1%nat)) by (unfold L; cbn [evalLoop length pp_T]; num_simpl; destruct (Rltb _ 50); [reflexivity|]; destruct (Rltb _ 70); reflexivity).
  rewrite EL. clear L EL. unfold atPoint. cbn [nth_error obind pp_T pp_in pp_cop quadratic]. num_simpl.
  replace (negb (Reqb' (70 - 50) 0)) with true by (symmetry; unfold Reqb'; destruct (Req_EM_T _ _); [lra|reflexivity]).
  assert (E3 : forall a b c d e g : R, a = d -> b = e -> c = g -> mkperf a b c = mkperf d e g) by (intros; subst; reflexivity).
  unfold baseCop, baseIn, lin2. apply E3; field; auto.
Qed.
Lemma gen_perf f h (w : hpwh R) air c : f <> 0 -> genComp f h -> let u := 9 / 5 * air + 32 in let x := 9 / 5 * c + 32 in
  getPerformance w h air c = Ok (mkperf (baseIn u x / f) (baseCop u x * baseIn u x) (baseCop u x * f)).
Proof.
  intros HF [B1 B2 B3 B4 B5 B6 B7 B8 B9 B10 B11 (C1 & C2 & C3 & C4 & C5 & C6 & C7)]. cbv zeta. unfold getPerformance. rewrite B9, B10, C1, C3, C4, C5, C6.
  num_simpl. unfold nneqb. num_simpl. rewrite (proj2 (Reqb'_true 1 1)) by lra. cbn [negb].
  rewrite (proj2 (Rltb_false 0 0)) by lra. cbn [andb obind]. rewrite Rplus_0_r. rewrite scaled_eval by auto. cbn [p_in p_cop p_out].
  assert (E3 : forall a b c d e g : R, a = d -> b = e -> c = g -> mkperf a b c = mkperf d e g) by (intros; subst; reflexivity).
  f_equal. apply E3; field; auto.
Qed.
Lemma base_pos air c : 65 / 9 <= air <= 440 / 9 -> 0 <= c <= 60 -> 0 < baseCop (9 / 5 * air + 32) (9 / 5 * c + 32) /\ 0 < baseIn (9 / 5 * air + 32) (9 / 5 * c + 32).
Proof.
  intros Ha Hc. unfold baseCop, baseIn, lin2. set (u := 9 / 5 * air + 32). set (x := 9 / 5 * c + 32). assert (Hu : 45 <= u <= 120) by (unfold u; lra). assert (Hx : 32 <= x <= 140) by (unfold x; lra).
  clearbody u x. split; nra.
Qed.

(** ** Acceptance *)
Lemma shrink_pos (d : wdist R) : goodDist d -> 1 <= findShrinkageT d 12.
Proof.
  intros HG. unfold findShrinkageT.
  assert (HL : forall l s ce, 0 <= ce -> (s + length l <= 12)%nat -> l = seq s (length l) ->
    0 <= fst (fold_left (fun '(ce, fracBegin) i => let fracEnd := ndiv (nofN (S i)) (nofN 12) in let dist := wd_normalizedWeight d fracBegin fracEnd in
      ((if nltb (nofZ 0) dist then nsub ce (nmul dist (nln dist)) else ce), fracEnd)) l (ce, INR s / 12))).
  { induction l as [|i l IH]; intros s ce HC HS HE; [exact HC|]. cbn [length seq] in HE. injection HE as Ei El. subst i. cbn [fold_left].
    assert (HI : INR (S s) = INR s + 1) by (rewrite S_INR; reflexivity). pose proof (pos_INR s) as HP.
    assert (HM : INR s + 1 <= 12). { replace 12 with (INR 12) by (cbn; lra). rewrite <- S_INR. apply le_INR. cbn [length] in HS. lia. }
    rewrite !nofN_R. replace (INR 12) with 12 by (cbn; lra). num_simpl.
    rewrite normalizedWeight_eq; [|apply HG|apply HG|rewrite HI; lra].
    assert (HB : 0 <= share d (INR s / 12) (INR (S s) / 12) <= 1).
    { split; [apply share_nonneg; auto|]. pose proof (share_full d HG) as H1.
      rewrite (share_add d 0 (INR s / 12) 1) in H1 by (auto; lra). rewrite (share_add d (INR s / 12) (INR (S s) / 12) 1) in H1 by (auto; rewrite HI; lra).
      pose proof (share_nonneg d 0 (INR s / 12) HG). pose proof (share_nonneg d (INR (S s) / 12) 1 HG). lra. }
    set (sh := share d (INR s / 12) (INR (S s) / 12)) in *. clearbody sh.
    specialize (IH (S s)). num_simpl. apply IH; [|cbn [length] in HS; lia|rewrite El at 1; f_equal].
    destruct (Rltb 0 sh) eqn:E0; bcase; auto. assert (HN : ln sh <= 0). { destruct (Rle_lt_or_eq_dec sh 1) as [X|X]; [lra| |].
      - left. rewrite <- ln_1. apply ln_increasing; auto.
      - rewrite X, ln_1. lra. }
    nra. }
  specialize (HL (seq 0 12) 0%nat 0 ltac:(lra) ltac:(rewrite seq_length; lia) ltac:(rewrite seq_length; reflexivity)).
  replace (INR 0 / 12) with 0 in HL by (cbn; field). 
  change (nofZ 0) with 0 in *. destruct (fold_left _ (seq 0 12) (0, 0)) as [ce fe] eqn:EF. cbn [fst] in HL.
  unfold CONDENSITY_SIZE. rewrite !nofN_R. num_simpl. replace (INR 12 / INR 12) with 1 by (field; cbn; lra). rewrite ln_1. lra.
Qed.

Lemma gen_sources jt jb jc resUse f : exists a b c, map (deriveHS 12) (genSources jt jb jc resUse (scaledMap f)) = [a; b; c] /\ genTop resUse a /\ genBottom b /\ genComp f c /\ 1 <= h_shrink c.
Proof.
  unfold genSources. cbn [map]. eexists _, _, _. split; [reflexivity|]. split; [apply gen_top|]. split; [apply gen_bottom|]. split; [apply gen_comp|].
  pose proof (gen_comp f jc 12) as HG. pose proof (gc_dist _ _ HG) as HD.
  assert (ES : forall h : hsrc R, h_shrink (deriveHS 12 h) = findShrinkageT (h_dist (deriveHS 12 h)) 12) by (intros h; unfold deriveHS; wsimpl; reflexivity).
  rewrite ES, HD. apply shrink_pos. apply comp_good.
Qed.
Lemma UA_pos vol : 0 <= genericUA (T:=R) vol.
Proof. unfold genericUA, dec. num_simpl. match goal with |- 0 <= _ * ?a * ?a => set (q := a) end. assert (0 <= q * q) by nra. nra. Qed.
Lemma gen_logic resUse : validLogic (topThird (T:=R) resUse) /\ Forall (fun p => 0 <= snd p) (d_w (rangeDist (T:=R) (2 / 3) 1)).
Proof. split; [intros _; apply good_valid; apply (range_good (2 / 3) 1); lra|apply (range_good (2 / 3) 1); lra]. Qed.
Lemma third_valid d : validLogic (bottomThird (T:=R) d).
Proof. intros _. apply good_valid. apply (range_good 0 (1 / 3)); lra. Qed.
Lemma twelfth_valid d : validLogic (bottomTwelfthMaxTemp (T:=R) d).
Proof. intros _. apply good_valid. apply (range_good 0 (1 / 12)); lra. Qed.
Lemma third_height (w : hpwh R) d : l_nodeWeightAvgFract w (bottomThird (T:=R) d) = 5 / 24.
Proof.
  unfold bottomThird, rangeLogic. cbn [l_nodeWeightAvgFract]. unfold rangeDist. cbn [d_type d_w]. num_simpl.
  rewrite (proj2 (Rltb_false 0 0)), (proj2 (Rltb_true (1 / 3) 1)) by lra. cbn [app fold_left]. unfold LOGIC_SIZE, nofN, dec. num_simpl. cbn [Z.of_nat Pos.of_succ_nat Pos.succ]. field.
Qed.
Lemma gen_acceptable vol f jt jb jc resUse (v : hpwh R) : freshUnit vol (genericUA vol) (genSources jt jb jc resUse (scaledMap f)) v -> acceptable (calcDerivedValues v) /\ w_compIx (calcDerivedValues v) = 2%Z.
Proof.
  intros HF. pose proof (fresh_derived _ _ _ _ HF) as HD. destruct (gen_sources jt jb jc resUse f) as (a & b & c & EM & HA & HB & HC & HS). rewrite EM in HD.
  pose proof (C56_compressor_index_fact v) as XC. pose proof (C56_found_if_present_fact v) as XL. cbv zeta in XC, XL.
  generalize dependent (calcDerivedValues v). intros d HD XC XL. pose proof (fu_hs _ _ _ _ HD) as EH. rewrite EH in *.
  assert (HK : w_compIx d = 2%Z).
  { destruct XC as [(_ & HN)|(i & E & (h & HI & HT) & _)].
    - exfalso. apply (HN 2%nat). exists c. split; [reflexivity|apply HC].
    - rewrite E. destruct i as [|[|[|i]]]; cbn [nth_error] in HI; inversion HI; subst; auto; [rewrite (gt_type _ _ HA) in HT|rewrite (gb_type _ HB) in HT|destruct i]; discriminate. }
  split; auto. constructor.
  - left. rewrite EH. discriminate.
  - rewrite EH. intros i h HI. destruct i as [|[|[|i]]]; cbn [nth_error] in HI; [inversion HI; subst h..|destruct i; discriminate].
    + destruct HA as [A1 A2 A3 A4 A5 (A6 & A6') A7 A8 A9 A10]. constructor; rewrite ?A5, ?A6, ?A10; try lra.
      * left. rewrite A5. discriminate.
      * apply Forall_cons; [apply gen_logic|apply Forall_nil].
      * apply Forall_nil.
      * apply good_valid; auto.
      * intros HT. congruence.
    + destruct HB as [A1 A2 A3 A4 A5 (A6 & A6') A7 A8 A9 A10]. constructor; rewrite ?A5, ?A6, ?A10; try lra.
      * right. exists 2%nat, c. split; [reflexivity|]. destruct (gc_links _ _ HC) as (L1 & _). split; auto. rewrite (gc_turnOn _ _ HC). split; [discriminate|].
        intros k q HK' HQ. destruct k as [|[|k]]; [| |lia]; cbn [nth_error] in HQ; inversion HQ; subst q; [destruct (gt_links _ _ HA) as (-> & _); discriminate|destruct A7 as (-> & _); discriminate].
      * apply Forall_nil.
      * apply Forall_cons; [apply twelfth_valid|apply Forall_nil].
      * apply good_valid; auto.
      * intros HT. congruence.
    + destruct HC as [A1 A2 A3 A4 (A5 & A5') A6 A7 A8 A9 A10 A11 (B1 & B2 & B3 & B4 & B5 & B6 & B7)]. constructor; rewrite ?A4, ?A5, ?A8, ?A9; try lra.
      * left. rewrite A4. discriminate.
      * apply Forall_cons; [apply third_valid|]. apply Forall_cons; [intros HX; discriminate HX|apply Forall_nil].
      * apply Forall_nil.
      * apply good_valid, comp_good.
      * intros _. constructor; intros; try congruence; auto.
  - intros _. unfold getSizingFractions, hasCompressor. rewrite HK. cbn [Z.leb Z.compare negb]. destruct (fu_soc _ _ _ _ HD) as (-> & _).
    unfold compressor. rewrite HK, EH. cbn [Z.ltb Z.compare]. change (Z.to_nat 2) with 2%nat. cbn [nth_error obind].
    unfold aquaFract, useFract. rewrite (gc_turnOn _ _ HC). destruct (gc_off _ _ HC) as (-> & _). cbn [fold_left]. rewrite third_height. cbn [standbyTop l_nodeWeightAvgFract d_type]. num_simpl.
    rewrite (proj2 (Rltb_true (5 / 24) 1)), (proj2 (Rltb_false 1 (5 / 24))) by lra. eexists _, _. split; [reflexivity|].
    unfold nabs, TOL_MINVALUE, dec. num_simpl. rewrite (proj2 (Rltb_false (5 / 24 - (1 - 1)) 0)) by lra.
    match goal with |- context [Rltb ?x ?y] => rewrite (proj2 (Rltb_false x y)) by lra end. lra.
  - destruct XL as (XL & _).
    + intros i h (HI & HT). destruct i as [|[|[|i]]]; cbn [nth_error] in HI; [inversion HI; subst h..|destruct i; discriminate]; [apply HA|apply HB|rewrite (gc_type _ _ HC) in HT; discriminate].
    + exists 0%nat, a. split; [reflexivity|apply HA].
    + exists 100. unfold isNewSetpointPossible, tempToC. cbn [obind]. unfold setpointPossible. destruct (fu_sp _ _ _ _ HD) as (ES & EFx). rewrite EFx, ES, F127. unfold hasCompressor. rewrite HK, EH. cbn [Z.leb Z.compare]. change (Z.to_nat 2) with 2%nat. cbn [nth_error obind].
      replace (Z.leb 0 (w_lowIx d)) with true by (symmetry; apply Z.leb_le; auto). unfold tolT, dec. num_simpl. rewrite (proj2 (Rltb_false (100 + _) _)) by lra. reflexivity.
  - rewrite (fu_UA _ _ _ _ HD). apply UA_pos.
  - destruct (fu_hx _ _ _ _ HD) as (_ & ->). lra.
Qed.

Definition inWater (c : R) : Prop := 0 <= c <= 60.
Lemma gen_ready air vol f jt jb jc resUse (v : hpwh R) : f <> 0 -> 0 < vol -> 65 / 9 <= air <= 440 / 9 -> freshUnit vol (genericUA vol) (genSources jt jb jc resUse (scaledMap f)) v ->
  unitReady air inWater (calcDerivedValues v) /\ unitOK air inWater (calcDerivedValues v) /\ Forall (fun h => ~ multiPass h) (w_hs (calcDerivedValues v)).
Proof.
  intros Hf HV HA HF. pose proof (fresh_derived _ _ _ _ HF) as HD. destruct (gen_acceptable _ _ _ _ _ _ _ HF) as (AC & HK). destruct (gen_sources jt jb jc resUse f) as (a & b & c & EM & Ha & Hb & Hc & HS). rewrite EM in HD.
  assert (HP : forall (w : hpwh R) cond, inWater cond -> exists p, getPerformance w c air cond = Ok p /\ 0 < p_out p).
  { intros w cond HI. destruct (base_pos air cond HA HI) as (P1 & P2). eexists. split; [apply (gen_perf f); auto|]. cbn [p_out]. apply Rmult_lt_0_compat; auto. }
  assert (HZ : w_tank (calcDerivedValues v) = calcSizeConstants (w_tank (calcDerivedValues v))) by (rewrite (fresh_sized _ _ _ _ HF), size_idem; reflexivity).
  destruct (fu_sp _ _ _ _ HD) as (ES & _). rewrite F127 in ES. pose proof (fu_hs _ _ _ _ HD) as EH.
  destruct (C37_size_constants_fact (w_tank (calcDerivedValues v))) as (S1 & S2 & S3 & S4 & S5 & S6 & S7); [rewrite (fu_vol _ _ _ _ HD); lra|rewrite (fu_Ts _ _ _ _ HD); discriminate|]. rewrite <- HZ in S1, S2, S3, S4, S5, S6, S7.
  pose proof (third_valid (dF_TO_dC (dec 336883 10000))) as V1.
  split; [|split].
  - apply C59_ready_fact; auto.
    + rewrite ES, EH. cbn [length]. apply Forall_cons; [|apply Forall_cons; [|apply Forall_cons; [|apply Forall_nil]]].
      * destruct Ha as [A1 A2 A3 A4 A5 (A6 & A6') (A7 & A7' & A7'') A8 A9 A10]. constructor; intros; try congruence; [apply A9| | |lra].
        -- rewrite A5, A6 in H. destruct H as [[<-|[]]|[]]. apply (proj2 (gen_logic resUse)).
        -- destruct H as [H|[H|H]]; try congruence. rewrite A7'' in H. inversion H. lia.
      * destruct Hb as [A1 A2 A3 A4 A5 (A6 & A6') (A7 & A7' & A7'') A8 A9 A10]. constructor; intros; try congruence; [apply A9| | |lra].
        -- rewrite A5, A6 in H. destruct H as [[]|[<-|[]]]. apply (range_good 0 (1 / 12)); lra.
        -- destruct H as [H|[H|H]]; try congruence; [rewrite A7 in H|rewrite A7'' in H]; inversion H; lia.
      * destruct Hc as [A1 A2 A3 A4 (A5 & A5') (A6 & A6' & A6'') A7 A8 A9 A10 (A11 & A11' & A12 & A13) A14]. constructor; intros; try congruence.
        -- rewrite A8. apply comp_good.
        -- rewrite A4, A5 in H. destruct H as [[<-|[<-|[]]]|[]]; [apply (range_good 0 (1 / 3)); lra|apply Forall_nil].
        -- destruct H as [H|[H|H]]; try congruence. rewrite A6 in H. inversion H; lia.
        -- rewrite A2, A12, A13. splits; auto; try lra; try congruence.
    + destruct (fu_soc _ _ _ _ HD) as (-> & _). intros HX. discriminate HX.
  - assert (HN : length (t_Ts (w_tank (calcDerivedValues v))) = 12%nat) by (rewrite (fu_Ts _ _ _ _ HD); reflexivity). rewrite HN, (fu_vol _ _ _ _ HD) in *.
    assert (H12 : INR 12 = 12) by (cbn; lra). rewrite H12 in *. destruct (fu_step _ _ _ _ HD) as (T1 & _ & _).
    constructor.
    + constructor; rewrite ?HN, ?H12, ?(fu_vol _ _ _ _ HD); try lra; lia.
    + unfold ports_ok. rewrite ?HN. destruct (fu_inlet _ _ _ _ HD) as (-> & ->). cbn. lia.
    + apply HD.
    + rewrite EH, ?HN. apply Forall_cons; [|apply Forall_cons; [|apply Forall_cons; [|apply Forall_nil]]].
      * destruct Ha. constructor; intros; try congruence; try lra; auto; rewrite H12; lra.
      * destruct Hb. constructor; intros; try congruence; try lra; auto; rewrite H12; lra.
      * destruct Hc. constructor; intros; try congruence; try lra.
        -- destruct (HP w cond H0) as (p' & E & P). rewrite E in H1. inversion H1; subst. lra.
        -- rewrite gc_dist0. apply comp_good.
    + lra.
  - rewrite EH. apply Forall_cons; [|apply Forall_cons; [|apply Forall_cons; [|apply Forall_nil]]]; intros (M1 & M2 & _); [rewrite (gt_type _ _ Ha) in M1|rewrite (gb_type _ Hb) in M1|rewrite (gc_config _ _ Hc) in M2]; discriminate.
Qed.
Lemma rpower_1 y : Rpower 1 y = 1.
Proof. unfold Rpower. rewrite ln_1, Rmult_0_r. apply exp_0. Qed.
Lemma UA_small vol : 1 <= vol -> genericUA (T:=R) vol <= 100 * vol.
Proof.
  intros HV. unfold genericUA, GAL_TO_L, L_per_gal, dec. num_simpl.
  match goal with |- context [Rpow ?g ?e] => set (gal := g) end. set (p := Rpow gal (33 / 100)).
  assert (HG : 0 < gal <= vol). { unfold gal. split; [apply Rdiv_lt_0_compat; lra|]. apply (Rmult_le_reg_r (1 * (378541 / 100000))); [lra|]. unfold Rdiv at 1. rewrite Rmult_assoc, Rinv_l by lra. lra. }
  clearbody gal.
  assert (HP : 0 <= p /\ p * p <= vol).
  { unfold p, Rpow. destruct (Req_EM_T gal 0); [lra|]. clear p. split; [left; apply exp_pos|]. rewrite <- Rpower_plus.
    destruct (Rle_dec gal 1) as [L|L].
    - assert (E1 : Rpower gal (33 / 100 + 33 / 100) <= Rpower 1 (33 / 100 + 33 / 100)) by (apply Rle_Rpower_l; lra). rewrite (rpower_1 (33 / 100 + 33 / 100)) in E1. lra.
    - assert (E1 : Rpower gal (33 / 100 + 33 / 100) <= Rpower gal 1) by (apply Rle_Rpower; lra). rewrite Rpower_1 in E1 by lra. lra. }
  destruct HP as (P1 & P2). clearbody p.
  assert (HQ : p <= vol). { destruct (Rle_dec p 1); [lra|]. nra. }
  nra.
Qed.
Lemma gen_ok jt jb jc vol EF resUse (w : hpwh R) : 0 < vol -> EF <> -192 / 100 -> exists v,
  freshUnit vol (genericUA vol) (genSources jt jb jc resUse (scaledMap (genericFudge EF))) v /\ initGeneric jt jb jc vol EF resUse w = (Ok tt, calcDerivedValues v).
Proof.
  intros HV HE. destruct (gen_run jt jb jc vol EF resUse w HV HE) as (v & HF & E). exists v. split; auto. rewrite E.
  destruct (gen_acceptable _ _ _ _ _ _ _ HF) as (AC & _). rewrite finish_run by auto. pose proof (fresh_derived _ _ _ _ HF) as HD.
  destruct (gen_sources jt jb jc resUse (genericFudge EF)) as (a & b & c & EM & Ha & Hb & Hc & _). rewrite (fu_hs _ _ _ _ HD), EM. cbn [existsb]. rewrite (gt_on _ _ Ha), (gb_on _ Hb), (gc_on _ _ Hc). cbn [orb].
  assert (HH : w_heating (calcDerivedValues v) = false) by apply HD. generalize dependent (calcDerivedValues v). intros d _ _ HH. destruct d. cbn in HH. rewrite HH. reflexivity.
Qed.
Lemma gen_inv jt jb jc vol EF resUse (w w' : hpwh R) : initGeneric jt jb jc vol EF resUse w = (Ok tt, w') -> 0 < vol /\ EF <> -192 / 100.
Proof.
  intros E. destruct (Rle_dec vol 0) as [L|L].
  - destruct (gen_err jt jb jc vol EF resUse w L) as (e & v & E' & _). rewrite E' in E. discriminate.
  - split; [lra|]. intros HE. revert E. rewrite ig_unfold, defaults_hs. unfold igBody. rewrite start_run. erewrite bind_ok by apply modify_ok.
    assert (HX : t_fixed (w_tank (igStart (setAllDefaults w))) = false) by reflexivity. generalize dependent (igStart (setAllDefaults w)). intros u HX.
    erewrite bind_ok by (apply size_ok; [lra|exact HX]). erewrite bind_ok by apply modify_ok.
    replace (genericFudge EF) with 0 by (rewrite fudge_form, HE; field). destruct scale_zero as (m & ->). intros E. discriminate E.
Qed.

(** ** C94 *)
Lemma C94_accepts_fact : forall jt jb jc vol EF resUse (w : hpwh R),
  (0 < vol /\ EF <> -192 / 100 <-> exists w', initGeneric jt jb jc vol EF resUse w = (Ok tt, w')) /\
  (vol <= 0 -> exists e w', initGeneric jt jb jc vol EF resUse w = (Err e, w') /\ map h_type (w_hs w') = [TResistance; TResistance; TCompressor] /\
     Forall (fun h => h_backup h = None /\ h_followed h = None) (w_hs w') /\ t_volume (w_tank w') = t_volume (w_tank w)).
Proof.
  intros jt jb jc vol EF resUse w. split; [split|].
  - intros (HV & HE). destruct (gen_ok jt jb jc vol EF resUse w HV HE) as (v & _ & E). eauto.
  - intros (w' & E). eapply gen_inv; eauto.
  - intros HV. destruct (gen_err jt jb jc vol EF resUse w HV) as (e & w' & E & EH & _ & EV). exists e, w'. rewrite EH. split; [auto|]. split; [|split; [|auto]].
    + cbn [map]. destruct (fresh_plain jt) as (T1 & _). destruct (fresh_plain jb) as (T2 & _). destruct (fresh_comp jc) as (T3 & _).
      unfold genericTop, genericBottom, genericCompressor, setupRes. generalize dependent (newElement jt). generalize dependent (newElement jb). generalize dependent (freshCond jc). intros c T3 b T2 a T1. wsimpl. congruence.
    + destruct (fresh_plain jt) as (_ & _ & _ & _ & _ & _ & T1 & _ & T1' & _). destruct (fresh_plain jb) as (_ & _ & _ & _ & _ & _ & T2 & _ & T2' & _). destruct (fresh_comp jc) as (_ & _ & _ & _ & _ & T3 & _ & T3' & _).
      unfold genericTop, genericBottom, genericCompressor, setupRes. generalize dependent (newElement jt). generalize dependent (newElement jb). generalize dependent (freshCond jc). intros c T3 T3' b T2 T2' a T1 T1'.
      apply Forall_cons; [wsimpl; auto|]. apply Forall_cons; [wsimpl; auto|]. apply Forall_cons; [wsimpl; auto|apply Forall_nil].
Qed.

Lemma C94_performance_fact : forall jt jb jc vol EF resUse (w w' : hpwh R), initGeneric jt jb jc vol EF resUse w = (Ok tt, w') ->
  exists a b c, w_hs w' = [a; b; c] /\ h_type a = TResistance /\ h_type b = TResistance /\ h_type c = TCompressor /\ h_config c = Wrapped /\
  h_power a = 45 / 10 /\ h_power b = 4 /\ h_minT c = 65 / 9 /\ h_maxT c = 440 / 9 /\
  forall (v : hpwh R) air water, exists p, getPerformance v c air water = Ok p /\
    let u := 9 / 5 * air + 32 in let x := 9 / 5 * water + 32 in
    let cop := lin2 (54977772 / 10000000) (-243008 / 10000000) (7207307 / 1000000) (-335265 / 10000000) u x in
    let inp := lin2 (187064124 / 1000000) (1939747 / 1000000) (1480418 / 10000) (2553291 / 1000000) u x in
    let f := 70 / 100 + (95 / 100 - 70 / 100) * ((EF - 2) / (34 / 10 - 2)) in
    p_out p = cop * inp /\ p_cop p = f * cop /\ f * p_in p = inp.
Proof.
  intros jt jb jc vol EF resUse w w' E. destruct (gen_inv _ _ _ _ _ _ _ _ E) as (HV & HE). destruct (gen_ok jt jb jc vol EF resUse w HV HE) as (v & HF & E'). rewrite E' in E. inversion E; subst w'. clear E E'.
  pose proof (fresh_derived _ _ _ _ HF) as HD. destruct (gen_sources jt jb jc resUse (genericFudge EF)) as (a & b & c & EM & Ha & Hb & Hc & _). rewrite (fu_hs _ _ _ _ HD), EM. exists a, b, c.
  assert (Hf : genericFudge EF <> 0) by (rewrite fudge_form; intros HX; lra). destruct (gc_limits _ _ Hc) as (L1 & L2 & _).
  splits; try reflexivity; try apply Ha; try apply Hb; try apply Hc; auto.
  intros u air water. eexists. split; [apply (gen_perf (genericFudge EF)); auto|]. cbv zeta. cbn [p_out p_cop p_in]. unfold baseCop, baseIn. rewrite fudge_form in *. splits; auto; field.
  - lra.
Qed.

Lemma C94_positive_power_refuted_fact : exists jt jb jc vol EF resUse (w w' : hpwh R) c p, initGeneric jt jb jc vol EF resUse w = (Ok tt, w') /\
  nth_error (w_hs w') 2 = Some c /\ getPerformance w' c 20 20 = Ok p /\ 0 < p_out p /\ p_in p < 0 /\ p_cop p < 0.
Proof.
  pose (j := exHS (T:=R) TResistance false None [] [] [] 0). pose (w := exUnit (T:=R) [20; 30; 45; 50]).
  destruct (proj1 (proj1 (C94_accepts_fact j j j 190 (-3) 10 w))) as (w' & E); [lra|].
  destruct (C94_performance_fact _ _ _ _ _ _ _ _ E) as (a & b & c & EH & _ & _ & _ & _ & _ & _ & _ & _ & HP). destruct (HP w' 20 20) as (p & EP & P1 & P2 & P3). clear HP.
  exists j, j, j, 190, (-3), 10, w, w', c, p. splits; auto.
  - rewrite EH. reflexivity.
  - rewrite P1. unfold lin2. lra.
  - revert P3. unfold lin2. lra.
  - rewrite P2. unfold lin2. lra.
Qed.

Lemma C94_runs_fact : forall jt jb jc vol EF resUse (w w' : hpwh R), initGeneric jt jb jc vol EF resUse w = (Ok tt, w') -> 1 <= vol ->
  forall fuel rows, (144 < fuel)%nat ->
  (forall r, In r rows -> 0 <= r_draw r /\ r_draw r * 12 / vol <= INR fuel /\ 65 / 9 <= r_ext r <= 440 / 9 /\ 0 <= r_amb r <= 60 /\ 0 <= r_inletT r <= 60) -> Rsum (map r_draw rows) <> 0 ->
  exists ws wl w2, SeqProofs.runs fuel rows w' ws wl /\ runNSteps fuel rows w' = (Ok tt, w2) /\ Forall (fun v => within 0 60 (t_Ts (w_tank v))) ws /\
    tankHeat (w_tank w2) = tankHeat (w_tank w')
      + CPWATER * DENSITYWATER * (Rsum (map (fun r => r_draw r * r_inletT r) rows) - t_outletT (w_tank w2) * Rsum (map r_draw rows))
      + 3600 * Rsum (map h_eOut (w_hs w2)) - 3600 * w_stbyE w2.
Proof.
  intros jt jb jc vol EF resUse w w' E HV fuel rows F1 F2 F3. destruct (gen_inv _ _ _ _ _ _ _ _ E) as (HV0 & HE). destruct (gen_ok jt jb jc vol EF resUse w HV0 HE) as (v & HF & E'). rewrite E' in E. inversion E; subst w'. clear E E'.
  assert (Hf : genericFudge EF <> 0) by (rewrite fudge_form; intros HX; lra).
  pose proof (fresh_derived _ _ _ _ HF) as HD. pose proof (fun air HA => gen_ready air _ _ _ _ _ _ _ Hf HV0 HA HF) as HK.
  assert (HS : w_tank (calcDerivedValues v) = calcSizeConstants (w_tank (calcDerivedValues v))) by (rewrite (fresh_sized _ _ _ _ HF), size_idem; reflexivity).
  destruct (HK 20 ltac:(lra)) as (_ & _ & HM). generalize dependent (calcDerivedValues v). intros w' HD HK HS HM. generalize dependent (map (deriveHS 12) (genSources jt jb jc resUse (scaledMap (genericFudge EF)))). intros hs HD.
  rewrite (fu_hs _ _ _ _ HD) in HM.
  assert (HC : calmUnit 0 60 w') by (eapply fresh_calm; eauto; [split; [apply UA_pos|apply UA_small; auto]|lra]).
  assert (HN : length (t_Ts (w_tank w')) = 12%nat) by (rewrite (fu_Ts _ _ _ _ HD); reflexivity).
  destruct (C37_size_constants_fact (w_tank w')) as (_ & _ & _ & _ & S1 & _); [rewrite (fu_vol _ _ _ _ HD); lra|rewrite (fu_Ts _ _ _ _ HD); discriminate|]. rewrite <- HS, HN, (fu_vol _ _ _ _ HD) in S1.
  replace (INR 12) with 12 in S1 by (cbn; lra).
  destruct (fu_step _ _ _ _ HD) as (T1 & T2 & T3). destruct (fu_dep _ _ _ _ HD) as (D1 & _). destruct (fu_draw _ _ _ _ HD) as (_ & M1).
  assert (HCR : coveredRun inWater rows w') by (right; exists 0, 60; unfold calmRun; splits; auto; intros r HI; destruct (F2 r HI) as (_ & _ & _ & ? & ?); auto).
  assert (HR : forall r, In r rows -> unitOK (r_ext r) inWater w' /\ unitReady (r_ext r) inWater w' /\ 0 <= r_draw r /\ r_draw r / t_nodeVol (w_tank w') <= INR fuel).
  { intros r HI. destruct (F2 r HI) as (G1 & G2 & G3 & _). destruct (HK _ G3) as (K1 & K2 & _). splits; auto. replace (t_nodeVol (w_tank w')) with (vol / 12) by lra. replace (r_draw r / (vol / 12)) with (r_draw r * 12 / vol) by (field; lra). auto. }
  destruct (C73_run_completes_fact fuel inWater rows w') as (w2 & E2); rewrite ?T1, ?D1, ?M1, ?HN; try lra; auto.
  { intros _. eapply conduction_stable; eauto. }
  destruct (runs_succ fuel inWater rows w') as (ws & wl & HX); rewrite ?T1, ?D1, ?M1, ?HN; try lra; auto.
  { intros _. rewrite T2. pose proof (conduction_stable _ _ _ _ HV HD HS) as HT. rewrite T2 in HT. exact HT. }
  exists ws, wl, w2. splits; auto.
  - apply (C30_run_range_fact fuel inWater 0 60 rows w' wl ws); auto.
    + intros air HI. apply in_map_iff in HI. destruct HI as (r & <- & HI). apply HR; auto.
    + intros r HI. destruct (F2 r HI) as (_ & _ & _ & ? & ?); auto.
  - apply (C23_run_balance_fact fuel inWater rows w' w2); auto.
    + intros air [HX'|HI]; [congruence|]. apply in_map_iff in HI. destruct HI as (r & <- & HI). apply HR; auto.
    + apply Forall_forall. intros r HI. apply F2; auto.
Qed.

Lemma C94_example_fact : forall jt jb jc (w : hpwh R), exists w' w2, initGeneric jt jb jc 190 2 10 w = (Ok tt, w') /\
  runNSteps 145 [mkrow (T:=R) 10 3 20 20 0%Z; mkrow 15 5 20 12 0%Z] w' = (Ok tt, w2).
Proof.
  intros jt jb jc w. destruct (proj1 (proj1 (C94_accepts_fact jt jb jc 190 2 10 w))) as (w' & E); [lra|]. exists w'.
  destruct (C94_runs_fact _ _ _ _ _ _ _ _ E ltac:(lra) 145 [mkrow (T:=R) 10 3 20 20 0%Z; mkrow 15 5 20 12 0%Z]) as (ws & wl & w2 & _ & E2 & _).
  - lia.
  - intros r HI. assert (HF : 144 <= INR 145) by (rewrite INR_IZR_INZ; cbn; lra). cbn [In] in HI. destruct HI as [<-|[<-|[]]]; cbn [r_draw r_ext r_amb r_inletT]; lra.
  - cbn. lra.
  - exists w2. splits; auto.
Qed.
