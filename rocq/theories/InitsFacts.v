(** Proofs of the theorems stated in PropsInits.v: Properties of the procedures that set units up *)

From Coq Require Import ZArith String List Bool Reals Lra Lia Floats Sorting.Sorted.
From Verif Require Import Num FNum Base Units Utils Types TankM Logic HeatSrc Step Setters Config Perf Rating Fitter DataModel Init Spec SpecState SpecDist SpecEnergy SpecStep.
From Verif Require Import RList FrameProofs SimFrame MixProofs DistProofs TankFacts ControlProofs SeqProofs WholeStep Progress StepProgress EnergyFacts SettersFacts SourcesFacts ConfigFacts PerfFacts Example.
Import ListNotations.
Local Open Scope R_scope.
(** the settings all procedures agree on: twelve nodes at the setpoint of 127 F, no heat exchanger, steps of one
    minute, no demand response in force, inlet temperature not given yet *)
Record freshUnit (vol ua : R) (hs : list (hsrc R)) (w : hpwh R) : Prop := {
  fu_hs : w_hs w = hs;
  fu_Ts : t_Ts (w_tank w) = repeat (F_TO_C 127) 12;
  fu_vol : t_volume (w_tank w) = vol;
  fu_UA : t_UA (w_tank w) = ua;
  fu_inlet : t_inlet (w_tank w) = 0%Z /\ t_inlet2 (w_tank w) = 0%Z;
  fu_mix : t_doMix (w_tank w) = true /\ t_doCond (w_tank w) = true;
  fu_draw : t_mixesOnDraw (w_tank w) = true /\ t_mixBelowFrac (w_tank w) = 1 / 3;
  fu_hx : t_hasHX (w_tank w) = false /\ t_hxEff (w_tank w) = 9 / 10;
  fu_fit : t_fitUA (w_tank w) = 0;
  fu_size : t_fixed (w_tank w) = false;
  fu_sp : w_setpoint w = F_TO_C 127 /\ w_setFixed w = false;
  fu_soc : w_usesSoC w = false /\ w_SoC w = 1;
  fu_dep : w_doDepress w = false /\ w_locT w = -500;
  fu_step : w_minStep w = 1 /\ w_secStep w = 60 /\ w_hrStep w = 1 / 60;
  fu_dr : w_prevDR w = 0%Z /\ w_timer w = 0 /\ w_timerLimit w = 60;
  fu_model : w_storage w = false;
  fu_inlet_T : w_haveInletT w = false /\ w_inletT w = -1;
  fu_heating : w_heating w = false
}.
Lemma fresh_derived vol ua hs (v : hpwh R) : freshUnit vol ua hs v -> freshUnit vol ua (map (deriveHS 12) hs) (calcDerivedValues v).
Proof.
  intros [A1 A2 A3 A4 A5 A6 A7 A8 A9 A10 A11 A12 A13 A14 A15 A16 A17 A18]. rewrite derived_form, A1. unfold numNodes. rewrite A2, repeat_length.
  rewrite size_form. unfold derivedOf. cbv zeta. generalize (scanHS (mkscan (-1) (-1) (-1) (-1) (nofZ 1) (nofZ 0)) 0 (map (deriveHS 12) hs)). intros s.
  generalize (sortPos (resPoints (map (deriveHS 12) hs) 0)). intros r. generalize (map (deriveHS 12) hs). intros ds.
  unfold sized. cbv zeta. generalize (tankRadius_m (t_volume (w_tank v))). intros rad. generalize (npow (Num:=RNum)). intros pw.
  unfold putDerived, putSize. constructor; wsimpl; auto.
Qed.
Lemma fresh_sized vol ua hs (v : hpwh R) : freshUnit vol ua hs v -> w_tank (calcDerivedValues v) = calcSizeConstants (w_tank v).
Proof. intros _. rewrite derived_form. apply derivedOf_keeps. Qed.

(** how the common part runs *)
Definition blank0 (w : hpwh R) : hpwh R := set_w_tank (set_t_fixed false (setNumNodes 12 (w_tank w))) w.
Definition blankT (vol : R) (w : hpwh R) : tank R := calcSizeConstants (calcSizeConstants (set_t_volume vol (w_tank (blank0 w)))).
Definition blankOf (t : tank R) (w : hpwh R) : hpwh R :=
  set_w_doDepress false (set_w_tank (set_t_mixesOnDraw true (set_t_Ts (map (fun _ => F_TO_C 127) (t_Ts t)) t)) (set_w_setpoint (F_TO_C 127) w)).
Definition blank (vol : R) (w : hpwh R) : hpwh R := blankOf (blankT vol w) (blank0 w).
Lemma bind_ok {S A B} (m : M S A) (f : A -> M S B) s a s' : m s = (Ok a, s') -> bind m f s = f a s'.
Proof. intros E. unfold bind. rewrite E. reflexivity. Qed.
Lemma bind_err {S A B} (m : M S A) (f : A -> M S B) s e s' : m s = (Err e, s') -> bind m f s = (Err e, s').
Proof. intros E. unfold bind. rewrite E. reflexivity. Qed.
Lemma modify_ok {S} (f : S -> S) s : modify f s = (Ok tt, f s).
Proof. reflexivity. Qed.
Lemma onTank_eq {A} (m : M (tank R) A) w r t : m (w_tank w) = (r, t) -> onTank m w = (r, set_w_tank t w).
Proof. intros E. unfold onTank. rewrite E. reflexivity. Qed.
Lemma setVolume_ok vol (t : tank R) : 0 < vol -> t_fixed t = false -> setVolume vol false t = (Ok tt, calcSizeConstants (set_t_volume vol t)).
Proof.
  intros HV HF. unfold setVolume, bind, get. rewrite HF. cbn [andb negb].
  replace (nleb vol (nofZ 0)) with false by (symmetry; num_simpl; apply Rleb_false; lra). reflexivity.
Qed.
Lemma setVolume_err vol (t : tank R) : vol <= 0 -> t_fixed t = false -> setVolume vol false t = (Err "You have attempted to set the tank volume outside of bounds.", t).
Proof.
  intros HV HF. unfold setVolume, bind, get. rewrite HF. cbn [andb negb].
  replace (nleb vol (nofZ 0)) with true by (symmetry; num_simpl; apply Rleb_true; lra). reflexivity.
Qed.
Lemma size_ok vol (w : hpwh R) : 0 < vol -> t_fixed (w_tank w) = false ->
  setTankSize vol U_L false w = (Ok tt, set_w_tank (calcSizeConstants (calcSizeConstants (set_t_volume vol (w_tank w)))) w).
Proof.
  intros HV HF. unfold setTankSize. erewrite bind_ok by reflexivity. apply onTank_eq. erewrite bind_ok by (apply setVolume_ok; auto). reflexivity.
Qed.
Lemma size_err vol (w : hpwh R) : vol <= 0 -> t_fixed (w_tank w) = false ->
  setTankSize vol U_L false w = (Err "You have attempted to set the tank volume outside of bounds.", w).
Proof.
  intros HV HF. unfold setTankSize. erewrite bind_ok by reflexivity. erewrite onTank_eq by (apply bind_err, setVolume_err; auto). destruct w; reflexivity.
Qed.
Lemma reset_ok (w : hpwh R) : resetTankToSetpoint w = (Ok tt, set_w_tank (set_t_Ts (map (fun _ => w_setpoint w) (t_Ts (w_tank w))) (w_tank w)) w).
Proof. reflexivity. Qed.
Lemma blank0_fixed (w : hpwh R) : t_fixed (w_tank (blank0 w)) = false.
Proof. reflexivity. Qed.
Lemma blank_run' vol (w : hpwh R) t : setTankSize vol U_L false (blank0 w) = (Ok tt, set_w_tank t (blank0 w)) -> blankTank vol w = (Ok tt, blankOf t (blank0 w)).
Proof.
  intros E. unfold blankTank. erewrite bind_ok by apply modify_ok. fold (blank0 w). erewrite bind_ok by exact E.
  erewrite bind_ok by apply modify_ok. erewrite bind_ok by apply reset_ok. rewrite modify_ok. destruct (blank0 w). reflexivity.
Qed.
Lemma blank_run vol (w : hpwh R) : 0 < vol -> blankTank vol w = (Ok tt, blank vol w).
Proof. intros HV. apply blank_run'. apply size_ok; auto. Qed.
Lemma blank_err vol (w : hpwh R) : vol <= 0 -> blankTank vol w = (Err "You have attempted to set the tank volume outside of bounds.", blank0 w).
Proof.
  intros HV. unfold blankTank. erewrite bind_ok by apply modify_ok. fold (blank0 w). apply bind_err. apply size_err; auto.
Qed.
Lemma blank_fresh vol (w : hpwh R) : freshUnit vol (t_UA (w_tank w)) [] (blank vol (setAllDefaults w)) /\ w_canScale (blank vol (setAllDefaults w)) = false.
Proof.
  unfold blank, blankT. rewrite size_idem, size_form. unfold sized. cbv zeta. generalize (tankRadius_m (t_volume (set_t_volume vol (w_tank (blank0 (setAllDefaults w)))))). intros rad. generalize (npow (Num:=RNum)). intros pw.
  unfold blankOf, putSize, blank0, setAllDefaults, tankDefaults, stepLength, setNumNodes. split; [|reflexivity].
  constructor; wsimpl; auto; unfold sec_per_min, min_per_hr, UNINITIALIZED_LOCATIONTEMP, dec; num_simpl; splits; try reflexivity; try field.
Qed.
Lemma fresh_set vol ua hs ua' hs' (v : hpwh R) : freshUnit vol ua hs v -> freshUnit vol ua' hs' (set_w_tank (set_t_UA ua' (w_tank v)) (set_w_hs hs' v)).
Proof. intros [A1 A2 A3 A4 A5 A6 A7 A8 A9 A10 A11 A12 A13 A14 A15 A16 A17 A18]. constructor; wsimpl; auto. Qed.
(** the end of all procedures *)
Lemma finish_run (v : hpwh R) : acceptable (calcDerivedValues v) -> finishInit v = (Ok tt, set_w_heating (existsb h_on (w_hs (calcDerivedValues v))) (calcDerivedValues v)).
Proof.
  intros HA. apply C59_accepts_iff_fact in HA. unfold finishInit, bind, modify, get, lift. rewrite HA. reflexivity.
Qed.

(** ** The resistance tank *)
Definition validRT (vol EF upper lower : R) : Prop := 550 <= lower /\ 0 <= upper /\ 0 < EF /\ 0 < vol.
(** the heat loss coefficient (Btu/h-F) that, by the formula relating energy factor and recovery efficiency 0.98, goes with an energy factor *)
Definition UAofEF (EF lower : R) : R := (1 / EF - 1 / (98 / 100)) / (675 / 10 * (24 / 41094 - 1 / (98 / 100 * lower * (341443 / 100000)))).
Lemma UA_denominator lower : 550 <= lower -> 0 < 24 / 41094 - 1 / (98 / 100 * lower * (341443 / 100000)).
Proof.
  intros HL. assert (HX : 1 / (98 / 100 * lower * (341443 / 100000)) <= 1 / (98 / 100 * 550 * (341443 / 100000))) by (unfold Rdiv; apply Rmult_le_compat_l; [lra|]; apply Rinv_le_contravar; lra). lra.
Qed.
Lemma UA_value EF lower : 550 <= lower -> 0 < EF -> UAfromEF EF lower = Ok (UAofEF EF lower * (18 / 10) / (9478 / 10000)).
Proof.
  intros HL HE. pose proof (UA_denominator lower HL) as HD. unfold UAfromEF, div_chk, UAf_TO_UAc, dec. num_simpl.
  replace (Reqb' EF 0) with false by (symmetry; apply Reqb'_false; lra). cbn [negb obind].
  replace (Reqb' (98 / 100 * lower * (341443 / 100000)) 0) with false by (symmetry; apply Reqb'_false; nra). cbn [negb obind].
  set (X := 1 / (98 / 100 * lower * (341443 / 100000))) in *. 
  replace (Reqb' (675 / 10 * (24 / 41094 - X)) 0) with false by (symmetry; apply Reqb'_false; lra). cbn [negb obind].
  reflexivity.
Qed.
Definition rtSources (jt jb : hsrc R) (upper lower : R) : list (hsrc R) :=
  if Rlt_dec 0 upper then [upperElement upper (Some 1%nat) jt; lowerElement lower jb] else [lowerElement lower jb].
Lemma defaults_hs (w : hpwh R) : set_w_hs [] (setAllDefaults w) = setAllDefaults w.
Proof. destruct w. cbv -[tankDefaults sec_per_min min_per_hr UNINITIALIZED_LOCATIONTEMP]. reflexivity. Qed.
Lemma modify_seq {S A} (f : S -> S) (m : M S A) s : bind (modify f) (fun _ => m) s = m (f s).
Proof. reflexivity. Qed.
Lemma rt_run jt jb vol EF upper lower (w : hpwh R) : validRT vol EF upper lower ->
  exists v, freshUnit vol (Rmax 0 (UAofEF EF lower * (18 / 10) / (9478 / 10000))) (rtSources jt jb upper lower) v /\ w_canScale v = false /\
  initResistanceTank jt jb vol EF upper lower w = finishInit v.
Proof.
  intros (H1 & H2 & H3 & H4). unfold initResistanceTank. rewrite modify_seq.
  replace (nltb lower (nofZ 550)) with false by (symmetry; num_simpl; apply Rltb_false; lra).
  replace (nltb upper (nofZ 0)) with false by (symmetry; num_simpl; apply Rltb_false; lra).
  replace (nleb EF (nofZ 0)) with false by (symmetry; num_simpl; apply Rleb_false; lra).
  rewrite modify_seq. assert (E0 : set_w_hs [] (setAllDefaults w) = setAllDefaults w) by apply defaults_hs. rewrite E0. clear E0.
  erewrite bind_ok by (apply blank_run; auto). destruct (blank_fresh vol w) as (HF & HC). generalize dependent (blank vol (setAllDefaults w)). intros b HF HC.
  rewrite modify_seq. rewrite (UA_value EF lower H1 H3). erewrite bind_ok by reflexivity.
  set (ua := UAofEF EF lower * (18 / 10) / (9478 / 10000)). unfold setTankUA, clampUA. rewrite !modify_seq. wsimpl.
  set (hs := if nltb (nofZ 0) upper then _ else _). assert (Ehs : hs = rtSources jt jb upper lower).
  { unfold hs, rtSources. num_simpl. destruct (Rlt_dec 0 upper) as [L|L]; [rewrite (proj2 (Rltb_true 0 upper)) by lra|rewrite (proj2 (Rltb_false 0 upper)) by lra]; reflexivity. }
  rewrite Ehs. clear hs Ehs. num_simpl.
  destruct (Rltb ua 0) eqn:EU; bcase.
  - exists (set_w_tank (set_t_UA 0 (w_tank b)) (set_w_hs (rtSources jt jb upper lower) b)). rewrite Rmax_left by lra. split; [eapply fresh_set; eauto|]. split; auto.
  - exists (set_w_tank (set_t_UA ua (w_tank b)) (set_w_hs (rtSources jt jb upper lower) b)). rewrite Rmax_right by lra. split; [eapply fresh_set; eauto|]. split; auto.
Qed.

(** an element as the procedures make them, of a unit with [k] sources *)
Record plainElement (k : nat) (h : hsrc R) : Prop := {
  pe_type : h_type h = TResistance;
  pe_config : h_config h = Wrapped;
  pe_on : h_on h = false;
  pe_power : 0 < h_power h;
  pe_turnOn : h_turnOn h <> [] /\ Forall (fun l => match l with TempLogic _ d _ _ _ _ _ => Forall (fun p => 0 <= snd p) (d_w d) /\ (d_type d = DWeighted -> goodDist (d_w d)) | SoCLogic _ _ _ _ _ _ _ _ => False end) (h_turnOn h);
  pe_shutOff : h_shutOff h = [] /\ h_standby h = None;
  pe_links : h_backup h = None /\ h_companion h = None /\ forall b, h_followed h = Some b -> (b < k)%nat;
  pe_dist : goodDist (h_dist h);
  pe_air : h_airflow h = 1
}.
Lemma good_valid (d : wdist R) : goodDist d -> validWeights d.
Proof.
  intros [A B C D]. split; auto. clear A C D. revert B. generalize 0. induction d as [|[h x] d IH]; intros pr HS; cbn [map fst].
  - repeat constructor.
  - destruct HS as (H1 & H2). specialize (IH _ H2). constructor; auto. constructor; auto. inversion IH; subst. rewrite Forall_forall in *. intros y HY. specialize (H4 y HY). lra.
Qed.
Lemma plain_derive k n h : plainElement k h -> plainElement k (deriveHS n h).
Proof. intros [A1 A2 A3 A4 A5 A6 A7 A8 A9]. constructor; unfold deriveHS; wsimpl; auto. Qed.
Lemma F127 : F_TO_C (T:=R) 127 = 475 / 9.
Proof. unfold F_TO_C, offsetF, FperC. num_simpl. field. Qed.
Lemma elements_acceptable vol ua hs (v : hpwh R) : freshUnit vol ua hs v -> 0 <= ua -> hs <> [] -> Forall (plainElement (length hs)) hs -> acceptable (calcDerivedValues v).
Proof.
  intros HF HU HN HE. pose proof (fresh_derived _ _ _ _ HF) as HD. pose proof (C56_compressor_index_fact v) as XC. pose proof (C56_found_if_present_fact v) as XL. cbv zeta in XC, XL.
  assert (HE' : Forall (plainElement (length hs)) (map (deriveHS 12) hs)) by (rewrite Forall_forall in *; intros h HI; apply in_map_iff in HI; destruct HI as (g & <- & HI); apply plain_derive; auto).
  generalize dependent (calcDerivedValues v). intros d HD XC XL. pose proof (fu_hs _ _ _ _ HD) as EH. rewrite EH in *.
  assert (HK : w_compIx d = (-1)%Z).
  { destruct XC as [[E _]|(i & _ & (h & HI & HT) & _)]; auto. apply nth_error_In in HI. rewrite Forall_forall in HE'. specialize (HE' h HI). rewrite (pe_type _ _ HE') in HT. discriminate. }
  constructor.
  - left. rewrite EH. destruct hs; [congruence|discriminate].
  - rewrite EH. intros i h HI. rewrite Forall_forall in HE'. pose proof (HE' h (nth_error_In _ _ HI)) as [A1 A2 A3 A4 (A5 & A5') (A6 & A6') A7 A8 A9]. constructor.
    + left. auto.
    + eapply Forall_impl; [|exact A5']. intros l HL. destruct l; [|contradiction]. destruct HL as (_ & HL). intros HT. apply good_valid; auto.
    + rewrite A6. constructor.
    + apply good_valid; auto.
    + lra.
    + intros HT. congruence.
  - rewrite HK. lia.
  - destruct XL as (XL & _).
    + intros i h (HI & HT). rewrite Forall_forall in HE'. apply (HE' h (nth_error_In _ _ HI)).
    + destruct hs as [|h hs]; [congruence|]. exists 0%nat, (deriveHS 12 h). split; [reflexivity|]. inversion HE'; subst. apply H1.
    + exists 100. unfold isNewSetpointPossible, tempToC. cbn [obind]. unfold setpointPossible. destruct (fu_sp _ _ _ _ HD) as (ES & EFx). rewrite EFx, ES, F127. unfold hasCompressor. rewrite HK. cbn [Z.leb Z.compare obind].
      replace (Z.leb 0 (w_lowIx d)) with true by (symmetry; apply Z.leb_le; auto). unfold tolT, dec. num_simpl. rewrite (proj2 (Rltb_false _ _)); [reflexivity|lra].
  - rewrite (fu_UA _ _ _ _ HD). auto.
  - destruct (fu_hx _ _ _ _ HD) as (_ & ->). lra.
Qed.
Lemma setup_good node watts (h : hsrc R) : (0 <= node < 12)%Z -> goodDist (h_dist (setupRes node watts h)).
Proof.
  intros HN. unfold setupRes. wsimpl. num_simpl. assert (H0 : 0 <= IZR node <= 11) by (split; apply IZR_le; lia).
  destruct (Rltb 0 (1 / 12 * IZR node)) eqn:E1; destruct (Rltb (1 / 12 * (IZR node + 1)) 1) eqn:E2; bcase; cbn [app]; constructor; try discriminate; cbn [ascending fst snd]; try (splits; auto; lra).
  all: try (repeat constructor; cbn [snd]; lra).
  all: first [apply Exists_cons_hd; cbn [snd]; lra|apply Exists_cons_tl, Exists_cons_hd; cbn [snd]; lra].
Qed.
Lemma range_good bot top : 0 <= bot < top -> top <= 1 -> goodDist (d_w (rangeDist (T:=R) bot top)).
Proof.
  intros H1 H2. unfold rangeDist. cbn [d_w]. num_simpl.
  destruct (Rltb 0 bot) eqn:E1; destruct (Rltb top 1) eqn:E2; bcase; cbn [app]; constructor; try discriminate; cbn [ascending fst snd]; try (splits; auto; lra).
  all: try (repeat constructor; cbn [snd]; lra).
  all: first [apply Exists_cons_hd; cbn [snd]; lra|apply Exists_cons_tl, Exists_cons_hd; cbn [snd]; lra].
Qed.
Lemma range_logic bot top : 0 <= bot < top -> top <= 1 -> Forall (fun p => 0 <= snd p) (d_w (rangeDist (T:=R) bot top)) /\ (d_type (rangeDist (T:=R) bot top) = DWeighted -> goodDist (d_w (rangeDist (T:=R) bot top))).
Proof. intros H1 H2. pose proof (range_good bot top H1 H2) as HG. split; auto. apply HG. Qed.
Lemma fresh_plain j : let h := newElement (T:=R) j in h_type h = TResistance /\ h_config h = Wrapped /\ h_on h = false /\ h_turnOn h = [] /\ h_shutOff h = [] /\ h_standby h = None /\
  h_backup h = None /\ h_companion h = None /\ h_followed h = None /\ h_airflow h = 1.
Proof. unfold newElement, freshRes, freshHS. wsimpl. repeat split; reflexivity. Qed.
Lemma upper_plain k watts f j : 0 < watts -> (forall b, f = Some b -> (b < k)%nat) -> plainElement k (upperElement watts f j).
Proof.
  intros HW HF. destruct (fresh_plain j) as (A1 & A2 & A3 & A4 & A5 & A6 & A7 & A8 & A9 & A10). unfold upperElement. pose proof (setup_good 8 watts (newElement j) ltac:(lia)) as HG. generalize dependent (newElement j). clear j. intros h A1 A2 A3 A4 A5 A6 A7 A8 A9 A10 HG.
  unfold setupRes in *. wsimpl_in HG. constructor; wsimpl; auto.
  - num_simpl. lra.
  - split; [discriminate|]. constructor; [|constructor]. apply (range_logic (2 / 3) 1); lra.
Qed.
Lemma lower_plain k watts j : 0 < watts -> plainElement k (lowerElement watts j).
Proof.
  intros HW. destruct (fresh_plain j) as (A1 & A2 & A3 & A4 & A5 & A6 & A7 & A8 & A9 & A10). unfold lowerElement. pose proof (setup_good 0 watts (newElement j) ltac:(lia)) as HG. generalize dependent (newElement j). clear j. intros h A1 A2 A3 A4 A5 A6 A7 A8 A9 A10 HG.
  unfold setupRes in *. wsimpl_in HG. constructor; wsimpl; auto.
  - num_simpl. lra.
  - split; [discriminate|]. constructor; [apply (range_logic 0 (1 / 3)); lra|]. constructor; [|constructor]. split; [constructor|]. intros HX. discriminate HX.
  - split; auto. split; auto. intros b HB. congruence.
Qed.
Lemma rt_plain jt jb upper lower : 550 <= lower -> rtSources jt jb upper lower <> [] /\ Forall (plainElement (length (rtSources jt jb upper lower))) (rtSources jt jb upper lower).
Proof.
  intros HL. unfold rtSources. destruct (Rlt_dec 0 upper); (split; [discriminate|]); cbn [length].
  - apply Forall_cons; [apply upper_plain; auto; intros b E; inversion E; lia|]. apply Forall_cons; [apply lower_plain; lra|apply Forall_nil].
  - apply Forall_cons; [apply lower_plain; lra|apply Forall_nil].
Qed.
(** a unit of elements is ready at every air and water temperature *)
Lemma elements_ok air D vol ua hs (d : hpwh R) : 0 < vol -> freshUnit vol ua hs d -> w_tank d = calcSizeConstants (w_tank d) -> Forall (plainElement (length hs)) hs -> unitOK air D d.
Proof.
  intros HV HF HS HE. destruct HF as [A1 A2 A3 A4 A5 A6 A7 A8 A9 A10 A11 A12 A13 A14 A15 A16 A17 A18].
  assert (HN : length (t_Ts (w_tank d)) = 12%nat) by (rewrite A2; reflexivity).
  destruct (C37_size_constants_fact (w_tank d)) as (S1 & S2 & S3 & S4 & S5 & S6 & S7); [lra|rewrite A2; discriminate|]. rewrite <- HS in *. rewrite HN in *.
  assert (H12 : INR 12 = 12) by (cbn; lra). rewrite H12 in *.
  constructor.
  - constructor; try lra; [lia|rewrite HN, H12; lra].
  - unfold ports_ok. rewrite HN. destruct A5 as (-> & ->). cbn. lia.
  - apply A6.
  - rewrite HN, A1. rewrite Forall_forall in *. intros h HI. specialize (HE h HI). destruct HE as [B1 B2 B3 B4 B5 B6 B7 B8 B9].
    constructor; try congruence; intros; try lra; auto.
  - lra.
Qed.
Lemma elements_ready air D vol ua hs (v : hpwh R) : freshUnit vol ua hs v -> 0 <= ua -> hs <> [] -> Forall (plainElement (length hs)) hs -> unitReady air D (calcDerivedValues v).
Proof.
  intros HF HU HN HE. pose proof (fresh_derived _ _ _ _ HF) as HD. pose proof (elements_acceptable _ _ _ _ HF HU HN HE) as HA.
  apply C59_ready_fact; auto.
  - rewrite (fu_hs _ _ _ _ HD). rewrite map_length. rewrite Forall_forall in *. intros h HI. apply in_map_iff in HI. destruct HI as (g & <- & HI).
    pose proof (plain_derive _ 12 _ (HE g HI)) as [B1 B2 B3 B4 (B5 & B5') (B6 & B6') (B7 & B7' & B7'') B8 B9].
    constructor; intros; try congruence; auto.
    + apply B8.
    + rewrite B6 in H. cbn [In] in H. destruct H as [H|[]]. rewrite Forall_forall in B5'. specialize (B5' l H). destruct l as [q0 dd q1 q2 q3 q4 q5|]; [|contradiction]. exact (proj1 B5').
    + destruct H as [H|[H|H]]; try congruence. apply B7''; auto.
  - destruct (fu_soc _ _ _ _ HD) as (-> & _). discriminate.
Qed.

(** conduction is stable in a tank of at least one litre *)
Lemma conduction_stable vol ua hs (d : hpwh R) : 1 <= vol -> freshUnit vol ua hs d -> w_tank d = calcSizeConstants (w_tank d) -> condTau (w_tank d) (w_secStep d) <= 1.
Proof.
  intros HV HF HS. destruct (fu_step _ _ _ _ HF) as (_ & -> & _).
  destruct (C37_size_constants_fact (w_tank d)) as (_ & _ & _ & _ & _ & S6 & _); [rewrite (fu_vol _ _ _ _ HF); lra|rewrite (fu_Ts _ _ _ _ HF); discriminate|].
  rewrite <- HS in S6. rewrite (fu_Ts _ _ _ _ HF), repeat_length, (fu_vol _ _ _ _ HF) in S6. replace (INR 12) with 12 in S6 by (cbn; lra).
  destruct (C37_one_cylinder_fact vol) as (r & (HR & HC) & E & _); [lra|]. rewrite E in S6.
  assert (H3 : 1 / 10 <= r). { destruct (Rle_dec (1 / 10) r); auto. exfalso. assert (r * r <= 1 / 100) by nra. assert (r * r * r <= 1 / 1000) by nra. lra. }
  set (nh := t_nodeHeight (w_tank d)) in *. assert (HN : 1 / 100 <= nh). { assert (475 / 100 * (1 / 10 / (32808 / 10000)) <= 475 / 100 * (r / (32808 / 10000))) by (apply Rmult_le_compat_l; [lra|]; unfold Rdiv; apply Rmult_le_compat_r; lra). lra. }
  unfold condTau. fold nh. unfold KWATER, CPWATER, DENSITYWATER, dec. num_simpl. assert (HQ : 1 / 10000 <= nh * nh) by nra.
  set (q := nh * nh) in *. clearbody q. apply (Rmult_le_reg_r q); [lra|].
  match goal with |- ?a / (?b * ?c * q) * ?s * q <= _ => replace (a / (b * c * q) * s * q) with (a / (b * c) * s) by (field; lra) end. lra.
Qed.
Lemma elements_finish vol ua hs (v : hpwh R) : freshUnit vol ua hs v -> 0 <= ua -> hs <> [] -> Forall (plainElement (length hs)) hs -> finishInit v = (Ok tt, calcDerivedValues v).
Proof.
  intros HF HU HN HE. rewrite finish_run by (eapply elements_acceptable; eauto). pose proof (fresh_derived _ _ _ _ HF) as HD. rewrite (fu_hs _ _ _ _ HD).
  assert (EX : existsb h_on (map (deriveHS 12) hs) = false).
  { apply not_true_iff_false. intros HX. apply existsb_exists in HX. destruct HX as (h & HI & HO). apply in_map_iff in HI. destruct HI as (g & <- & HI). rewrite Forall_forall in HE. specialize (HE g HI).
    pose proof (pe_on _ _ (plain_derive _ 12 _ HE)). congruence. }
  rewrite EX. assert (HH : w_heating (calcDerivedValues v) = false) by apply HD. generalize dependent (calcDerivedValues v). intros d _ HH. destruct d. cbn in HH. rewrite HH. reflexivity.
Qed.
Lemma rt_ok jt jb vol EF upper lower (w : hpwh R) : validRT vol EF upper lower -> exists v,
  freshUnit vol (Rmax 0 (UAofEF EF lower * (18 / 10) / (9478 / 10000))) (rtSources jt jb upper lower) v /\ w_canScale v = false /\
  initResistanceTank jt jb vol EF upper lower w = (Ok tt, calcDerivedValues v).
Proof.
  intros HV. destruct (rt_run jt jb vol EF upper lower w HV) as (v & HF & HC & E). exists v. split; auto. split; auto. rewrite E.
  destruct (rt_plain jt jb upper lower (proj1 HV)) as (P1 & P2). eapply elements_finish; eauto. apply Rmax_l.
Qed.
Definition rtBody (jt jb : hsrc R) (vol EF upper lower : R) (u : hpwh R) : outc unit * hpwh R :=
  (if Rltb lower 550 then throw "Resistance tank lower element wattage below 550 W."
   else if Rltb upper 0 then throw "Upper resistance tank wattage below 0 W."
   else if Rleb EF 0 then throw "Energy Factor less than zero."
   else bind (modify (set_w_hs [])) (fun _ => bind (blankTank vol) (fun _ => 
      bind (modify (set_w_hs (if Rltb 0 upper then [upperElement upper (Some 1%nat) jt; lowerElement lower jb] else [lowerElement lower jb]))) (fun _ =>
      bind (lift (UAfromEF EF lower)) (fun ua => bind (setTankUA ua) (fun _ => bind clampUA (fun _ => finishInit))))))) u.
Lemma rt_unfold jt jb vol EF upper lower w : initResistanceTank jt jb vol EF upper lower w = rtBody jt jb vol EF upper lower (setAllDefaults w).
Proof. reflexivity. Qed.
Lemma rt_err jt jb vol EF upper lower (w : hpwh R) : ~ validRT vol EF upper lower -> exists e w',
  initResistanceTank jt jb vol EF upper lower w = (Err e, w') /\ (w' = setAllDefaults w \/ w' = blank0 (setAllDefaults w)).
Proof.
  intros HV. rewrite rt_unfold. pose proof (defaults_hs w) as HH. generalize dependent (setAllDefaults w). intros u HH. unfold rtBody.
  destruct (Rltb lower 550) eqn:E1; [eexists _, _; split; [reflexivity|auto]|].
  destruct (Rltb upper 0) eqn:E2; [eexists _, _; split; [reflexivity|auto]|].
  destruct (Rleb EF 0) eqn:E3; [eexists _, _; split; [reflexivity|auto]|]. bcase.
  destruct (Rle_dec vol 0) as [HL|HL].
  - exists "You have attempted to set the tank volume outside of bounds."%string, (blank0 u). split; auto. erewrite bind_ok by apply modify_ok. rewrite HH. apply bind_err. apply blank_err; auto.
  - exfalso. apply HV. unfold validRT. lra.
Qed.

(** ** C89 *)
Lemma C89_accepts_fact : forall jt jb vol EF upper lower (w : hpwh R),
  (550 <= lower /\ 0 <= upper /\ 0 < EF /\ 0 < vol -> exists w', initResistanceTank jt jb vol EF upper lower w = (Ok tt, w')) /\
  (~ (550 <= lower /\ 0 <= upper /\ 0 < EF /\ 0 < vol) -> exists e w', initResistanceTank jt jb vol EF upper lower w = (Err e, w')).
Proof.
  intros jt jb vol EF upper lower w. split; intros HV.
  - destruct (rt_ok jt jb vol EF upper lower w HV) as (v & _ & _ & E). eauto.
  - destruct (rt_err jt jb vol EF upper lower w HV) as (e & w' & E & _). eauto.
Qed.

Lemma C89_result_fact : forall jt jb vol EF upper lower (w w' : hpwh R), initResistanceTank jt jb vol EF upper lower w = (Ok tt, w') ->
  freshUnit vol (t_UA (w_tank w')) (w_hs w') w' /\ w_canScale w' = false /\
  map h_type (w_hs w') = (if Rlt_dec 0 upper then [TResistance; TResistance] else [TResistance]) /\
  map h_power (w_hs w') = (if Rlt_dec 0 upper then [upper / 1000; lower / 1000] else [lower / 1000]) /\
  map h_vip (w_hs w') = (if Rlt_dec 0 upper then [true; false] else [false]) /\
  map h_followed (w_hs w') = (if Rlt_dec 0 upper then [Some 1%nat; None] else [None]) /\
  Forall (fun h => h_on h = false /\ h_backup h = None /\ h_companion h = None /\ h_shutOff h = []) (w_hs w').
Proof.
  intros jt jb vol EF upper lower w w' E. destruct (Classical_Prop.classic (validRT vol EF upper lower)) as [HV|HV].
  - destruct (rt_ok jt jb vol EF upper lower w HV) as (v & HF & HC & E'). rewrite E' in E. inversion E; subst w'. clear E E'.
    pose proof (fresh_derived _ _ _ _ HF) as HD. assert (HC' : w_canScale (calcDerivedValues v) = false).
    { rewrite derived_form. unfold derivedOf. cbv zeta. generalize (scanHS (mkscan (-1) (-1) (-1) (-1) (nofZ 1) (nofZ 0)) 0 (map (deriveHS (numNodes (w_tank v))) (w_hs v))). intros s.
      generalize (sortPos (resPoints (map (deriveHS (numNodes (w_tank v))) (w_hs v)) 0)). intros r. generalize (map (deriveHS (numNodes (w_tank v))) (w_hs v)), (calcSizeConstants (w_tank v)). intros hs t. exact HC. }
    destruct (rt_plain jt jb upper lower (proj1 HV)) as (_ & HP). generalize dependent (calcDerivedValues v). intros d HD HC'. rewrite (fu_hs _ _ _ _ HD), (fu_UA _ _ _ _ HD).
    split; [exact HD|]. split; auto. rewrite !map_map.
    assert (HA : Forall (fun h => h_on h = false /\ h_backup h = None /\ h_companion h = None /\ h_shutOff h = []) (map (deriveHS 12) (rtSources jt jb upper lower))).
    { rewrite Forall_forall in *. intros h HI. apply in_map_iff in HI. destruct HI as (g & <- & HI). destruct (plain_derive _ 12 _ (HP g HI)). tauto. }
    assert (HL : forall watts f j, let g := upperElement (T:=R) watts f j in h_type g = TResistance /\ h_power g = watts / 1000 /\ h_vip g = true /\ h_followed g = f).
    { intros watts f j. cbv zeta. unfold upperElement, setupRes. destruct (fresh_plain j) as (A1 & _ & _ & _ & _ & _ & _ & _ & A9 & _). generalize dependent (newElement j). intros h A1 A9. wsimpl. num_simpl. auto. }
    assert (HB : forall watts j, let g := lowerElement (T:=R) watts j in h_type g = TResistance /\ h_power g = watts / 1000 /\ h_vip g = false /\ h_followed g = None).
    { intros watts j. cbv zeta. unfold lowerElement, setupRes. destruct (fresh_plain j) as (A1 & _ & _ & _ & _ & _ & _ & _ & A9 & _). generalize dependent (newElement j). intros h A1 A9. wsimpl. num_simpl. auto. }
    assert (HX : forall n (h : hsrc R), h_type (deriveHS n h) = h_type h /\ h_power (deriveHS n h) = h_power h /\ h_vip (deriveHS n h) = h_vip h /\ h_followed (deriveHS n h) = h_followed h).
    { intros n h. unfold deriveHS. wsimpl. auto. }
    assert (HM : forall {A} (f g : hsrc R -> A) l, (forall h, f (deriveHS 12 h) = g h) -> map (fun h => f (deriveHS 12 h)) l = map g l) by (intros A f g l HH; apply map_ext; auto).
    rewrite (HM _ h_type h_type), (HM _ h_power h_power), (HM _ h_vip h_vip), (HM _ h_followed h_followed) by (intros; apply HX).
    specialize (HL upper (Some 1%nat) jt). specialize (HB lower jb). cbv zeta in HL, HB. unfold rtSources in *. generalize dependent (upperElement upper (Some 1%nat) jt). generalize dependent (lowerElement lower jb). intros g (B1 & B2 & B3 & B4) hh. intros.
    destruct HL as (L1 & L2 & L3 & L4). destruct (Rlt_dec 0 upper); cbn [map]; rewrite ?L1, ?L2, ?L3, ?L4, ?B1, ?B2, ?B3, ?B4; auto.
  - destruct (rt_err jt jb vol EF upper lower w HV) as (e & v & E' & _). rewrite E' in E. discriminate.
Qed.

Lemma C89_example_fact : (forall jt jb (w : hpwh R), exists w', initResistanceTank_default jt jb w = (Ok tt, w')) /\
  (forall jt jb (w : hpwh R), exists e w', initResistanceTank jt jb 180 (95 / 100) 4500 500 w = (Err e, w')).
Proof.
  split; intros jt jb w.
  - unfold initResistanceTank_default. apply C89_accepts_fact. unfold GAL_TO_L, L_per_gal, dec. num_simpl. lra.
  - apply C89_accepts_fact. lra.
Qed.

(** ** C90 *)
Lemma C90_energy_factor_fact : forall jt jb vol EF upper lower (w w' : hpwh R), initResistanceTank jt jb vol EF upper lower w = (Ok tt, w') ->
  let UA := t_UA (w_tank w') * (9478 / 10000) / (18 / 10) in let P := lower * (341443 / 100000) in
  0 <= UA /\
  (EF <= 98 / 100 -> 1 / EF = 1 / (98 / 100) + 675 / 10 * UA * (24 / 41094 - 1 / (98 / 100 * P))) /\
  (98 / 100 <= EF -> UA = 0) /\ (UA = 0 -> 98 / 100 <= EF).
Proof.
  intros jt jb vol EF upper lower w w' E. destruct (Classical_Prop.classic (validRT vol EF upper lower)) as [HV|HV].
  2:{ destruct (rt_err jt jb vol EF upper lower w HV) as (e & v & E' & _). rewrite E' in E. discriminate. }
  destruct (rt_ok jt jb vol EF upper lower w HV) as (v & HF & HC & E'). rewrite E' in E. inversion E; subst w'. clear E E'.
  pose proof (fresh_derived _ _ _ _ HF) as HD. rewrite (fu_UA _ _ _ _ HD). destruct HV as (H1 & H2 & H3 & H4). pose proof (UA_denominator lower H1) as HN.
  cbv zeta. replace (98 / 100 * (lower * (341443 / 100000))) with (98 / 100 * lower * (341443 / 100000)) by ring.
  set (Q := 24 / 41094 - 1 / (98 / 100 * lower * (341443 / 100000))) in *. set (A := 1 / EF - 1 / (98 / 100)).
  assert (EU : UAofEF EF lower = A / (675 / 10 * Q)) by reflexivity. rewrite EU.
  assert (HP : 0 < / (675 / 10 * Q)) by (apply Rinv_0_lt_compat; lra).
  assert (HS1 : 0 <= A -> 0 <= A / (675 / 10 * Q)). { intros HX. unfold Rdiv at 1. apply Rmult_le_pos; lra. }
  assert (HS2 : 0 < A <-> 0 < A / (675 / 10 * Q)).
  { split; intros HX.
    - unfold Rdiv at 1. apply Rmult_lt_0_compat; lra.
    - replace A with (A / (675 / 10 * Q) * (675 / 10 * Q)) by (field; lra). apply Rmult_lt_0_compat; lra. }
  assert (HA1 : EF <= 98 / 100 -> 0 <= A). { intros HE. assert (1 / (98 / 100) <= 1 / EF) by (unfold Rdiv; apply Rmult_le_compat_l; [lra|]; apply Rinv_le_contravar; lra). unfold A. lra. }
  assert (HA2 : 98 / 100 <= EF -> A <= 0). { intros HE. assert (1 / EF <= 1 / (98 / 100)) by (unfold Rdiv; apply Rmult_le_compat_l; [lra|]; apply Rinv_le_contravar; lra). unfold A. lra. }
  assert (HA3 : EF < 98 / 100 -> 0 < A). { intros HE. assert (1 / (98 / 100) < 1 / EF) by (unfold Rdiv; apply Rmult_lt_compat_l; [lra|]; apply Rinv_lt_contravar; nra). unfold A. lra. }
  set (U := A / (675 / 10 * Q)) in *. pose proof (Rmax_l 0 (U * (18 / 10) / (9478 / 10000))) as HM.
  splits.
  - lra.
  - intros HE. rewrite Rmax_right by (apply HA1, HS1 in HE; lra). replace (U * (18 / 10) / (9478 / 10000) * (9478 / 10000) / (18 / 10)) with U by field.
    unfold U. replace (675 / 10 * (A / (675 / 10 * Q)) * Q) with A by (field; lra). unfold A. ring.
  - intros HE. rewrite Rmax_left; [lra|]. destruct (Rle_dec U 0); [lra|]. exfalso. assert (0 < A) by (apply HS2; lra). apply HA2 in HE. lra.
  - intros HU. destruct (Rle_dec (98 / 100) EF); auto. exfalso. assert (HPU : 0 < U) by (apply HS2, HA3; lra). rewrite Rmax_right in HU by lra. lra.
Qed.

Lemma C90_monotone_fact : forall jt jb vol EF1 EF2 upper lower (w w1 w2 : hpwh R), EF1 <= EF2 ->
  initResistanceTank jt jb vol EF1 upper lower w = (Ok tt, w1) -> initResistanceTank jt jb vol EF2 upper lower w = (Ok tt, w2) ->
  t_UA (w_tank w2) <= t_UA (w_tank w1).
Proof.
  intros jt jb vol EF1 EF2 upper lower w w1 w2 HE E1 E2.
  assert (HV : forall EF v, initResistanceTank jt jb vol EF upper lower w = (Ok tt, v) -> validRT vol EF upper lower /\ t_UA (w_tank v) = Rmax 0 (UAofEF EF lower * (18 / 10) / (9478 / 10000))).
  { intros EF v E. destruct (Classical_Prop.classic (validRT vol EF upper lower)) as [HV|HV].
    - split; auto. destruct (rt_ok jt jb vol EF upper lower w HV) as (v' & HF & _ & E'). rewrite E' in E. inversion E; subst v. apply (fresh_derived _ _ _ _ HF).
    - destruct (rt_err jt jb vol EF upper lower w HV) as (e & v' & E' & _). rewrite E' in E. discriminate. }
  destruct (HV _ _ E1) as ((H1 & _ & H3 & _) & ->). destruct (HV _ _ E2) as ((_ & _ & H3' & _) & ->). pose proof (UA_denominator lower H1) as HD.
  apply Rle_max_compat_l. assert (HX : UAofEF EF2 lower <= UAofEF EF1 lower); [|lra]. unfold UAofEF. unfold Rdiv at 1 5. apply Rmult_le_compat_r; [left; apply Rinv_0_lt_compat; lra|].
  assert (1 / EF2 <= 1 / EF1); [|lra]. unfold Rdiv. apply Rmult_le_compat_l; [lra|]. apply Rinv_le_contravar; lra.
Qed.

Lemma C90_example_fact : forall jt jb (w w' : hpwh R), initResistanceTank jt jb 180 (98 / 110) 4500 4500 w = (Ok tt, w') ->
  29 / 10 * (18 / 10) / (9478 / 10000) < t_UA (w_tank w') < 295 / 100 * (18 / 10) / (9478 / 10000).
Proof.
  intros jt jb w w' E. destruct (C90_energy_factor_fact jt jb 180 (98 / 110) 4500 4500 w w' E) as (_ & HQ & _). cbv zeta in HQ. specialize (HQ ltac:(lra)). lra.
Qed.

(** ** C91 *)
Lemma rt_unit jt jb vol EF upper lower (w w' : hpwh R) : initResistanceTank jt jb vol EF upper lower w = (Ok tt, w') ->
  (forall air D, unitOK air D w' /\ unitReady air D w') /\ freshUnit vol (t_UA (w_tank w')) (w_hs w') w' /\ 0 <= t_UA (w_tank w') /\ w_tank w' = calcSizeConstants (w_tank w') /\ 0 < vol.
Proof.
  intros E. destruct (Classical_Prop.classic (validRT vol EF upper lower)) as [HV|HV].
  2:{ destruct (rt_err jt jb vol EF upper lower w HV) as (e & v & E' & _). rewrite E' in E. discriminate. }
  destruct (rt_ok jt jb vol EF upper lower w HV) as (v & HF & HC & E'). rewrite E' in E. inversion E; subst w'. clear E E'. destruct HV as (H1 & H2 & H3 & H4).
  pose proof (fresh_derived _ _ _ _ HF) as HD. destruct (rt_plain jt jb upper lower H1) as (P1 & P2).
  assert (HS : w_tank (calcDerivedValues v) = calcSizeConstants (w_tank (calcDerivedValues v))) by (rewrite (fresh_sized _ _ _ _ HF), size_idem; reflexivity).
  assert (P3 : Forall (plainElement (length (map (deriveHS 12) (rtSources jt jb upper lower)))) (map (deriveHS 12) (rtSources jt jb upper lower))).
  { rewrite map_length. rewrite Forall_forall in *. intros h HI. apply in_map_iff in HI. destruct HI as (g & <- & HI). apply plain_derive. auto. }
  splits; auto.
  - intros air D. split; [eapply elements_ok; eauto|eapply elements_ready; eauto; apply Rmax_l].
  - rewrite (fu_UA _ _ _ _ HD), (fu_hs _ _ _ _ HD). auto.
  - rewrite (fu_UA _ _ _ _ HD). apply Rmax_l.
Qed.

Lemma C91_step_fact : forall jt jb vol EF upper lower (w w' : hpwh R), initResistanceTank jt jb vol EF upper lower w = (Ok tt, w') -> 1 <= vol ->
  w_haveInletT w' = false /\
  forall fuel x, (144 < fuel)%nat -> (0 < i_draw x -> i_vol2 x <= i_draw x) -> i_draw x * 12 / vol <= INR fuel -> extraList x = [] ->
  exists w2, runOneStep fuel x w' = (Ok tt, w2) /\
    tankHeat (w_tank w2) = tankHeat (w_tank w') + drawnHeat false (i_draw x) (-1) (i_vol2 x) (i_inT2 x) (t_outletT (w_tank w2))
      + 3600 * Rsum (map h_eOut (w_hs w2)) - 3600 * w_stbyE w2 /\
    Forall (fun h => 0 <= h_eOut h) (w_hs w2).
Proof.
  intros jt jb vol EF upper lower w w' E HV. destruct (rt_unit _ _ _ _ _ _ _ _ E) as (HK & HF & HU & HS & _). split; [apply HF|].
  intros fuel x F1 F2 F3 F4. destruct (HK (sourceAir w' x) (fun _ => True)) as (K1 & K2).
  assert (HN : length (t_Ts (w_tank w')) = 12%nat) by (rewrite (fu_Ts _ _ _ _ HF); reflexivity).
  destruct (C37_size_constants_fact (w_tank w')) as (_ & _ & _ & _ & S1 & _); [rewrite (fu_vol _ _ _ _ HF); lra|rewrite (fu_Ts _ _ _ _ HF); discriminate|]. rewrite <- HS, HN, (fu_vol _ _ _ _ HF) in S1.
  replace (INR 12) with 12 in S1 by (cbn; lra).
  assert (HC : covered (fun _ => True) x w') by (left; auto).
  destruct (fu_step _ _ _ _ HF) as (T1 & T2 & T3). destruct (fu_dep _ _ _ _ HF) as (D1 & _). destruct (fu_draw _ _ _ _ HF) as (_ & M1).
  destruct (C73_step_completes_fact fuel x (fun _ => True) w' K1 HC K2) as (w2 & E2); rewrite ?T1, ?D1, ?M1, ?HN; try lra; try congruence; auto.
  - intros _. eapply conduction_stable; eauto.
  - replace (t_nodeVol (w_tank w')) with (vol / 12) by lra. replace (i_draw x / (vol / 12)) with (i_draw x * 12 / vol) by (field; lra). auto.
  - exists w2. split; auto. assert (HX : extraOK (extraList x)) by (rewrite F4; right; intros q []).
    destruct (C21_step_balance_fact fuel x (fun _ => True) w' w2 K1 HC HX) as (B1 & B2 & B3 & B4 & B5); auto; [rewrite F4; congruence|].
    destruct (fu_hx _ _ _ _ HF) as (X1 & _). destruct (fu_inlet_T _ _ _ _ HF) as (I1 & I2). rewrite X1, I2, B2, F4 in B1. unfold Rsum at 2 in B1. cbn [fold_right] in B1. split; auto.
    rewrite B1. lra.
Qed.

Lemma C91_run_fact : forall jt jb vol EF upper lower (w w' : hpwh R), initResistanceTank jt jb vol EF upper lower w = (Ok tt, w') -> 1 <= vol ->
  forall fuel rows, (144 < fuel)%nat -> (forall r, In r rows -> 0 <= r_draw r /\ r_draw r * 12 / vol <= INR fuel) -> Rsum (map r_draw rows) <> 0 ->
  exists w2, runNSteps fuel rows w' = (Ok tt, w2) /\
    tankHeat (w_tank w2) = tankHeat (w_tank w')
      + CPWATER * DENSITYWATER * (Rsum (map (fun r => r_draw r * r_inletT r) rows) - t_outletT (w_tank w2) * Rsum (map r_draw rows))
      + 3600 * Rsum (map h_eOut (w_hs w2)) - 3600 * w_stbyE w2.
Proof.
  intros jt jb vol EF upper lower w w' E HV fuel rows F1 F2 F3. destruct (rt_unit _ _ _ _ _ _ _ _ E) as (HK & HF & HU & HS & _).
  assert (HN : length (t_Ts (w_tank w')) = 12%nat) by (rewrite (fu_Ts _ _ _ _ HF); reflexivity).
  destruct (C37_size_constants_fact (w_tank w')) as (_ & _ & _ & _ & S1 & _); [rewrite (fu_vol _ _ _ _ HF); lra|rewrite (fu_Ts _ _ _ _ HF); discriminate|]. rewrite <- HS, HN, (fu_vol _ _ _ _ HF) in S1.
  replace (INR 12) with 12 in S1 by (cbn; lra).
  assert (HC : coveredRun (fun _ => True) rows w') by (left; auto).
  destruct (fu_step _ _ _ _ HF) as (T1 & T2 & T3). destruct (fu_dep _ _ _ _ HF) as (D1 & _). destruct (fu_draw _ _ _ _ HF) as (_ & M1).
  destruct (C73_run_completes_fact fuel (fun _ => True) rows w') as (w2 & E2); rewrite ?T1, ?D1, ?M1, ?HN; try lra; auto.
  - intros r HI. destruct (F2 r HI). destruct (HK (r_ext r) (fun _ => True)). splits; auto. replace (t_nodeVol (w_tank w')) with (vol / 12) by lra. replace (r_draw r / (vol / 12)) with (r_draw r * 12 / vol) by (field; lra). auto.
  - intros _. eapply conduction_stable; eauto.
  - exists w2. split; auto. apply (C23_run_balance_fact fuel (fun _ => True) rows w' w2); auto.
    + intros air _. apply HK.
    + apply Forall_forall. intros r HI. apply F2; auto.
Qed.

Lemma unitOK_sub air (D D' : R -> Prop) (w : hpwh R) : (forall c, D' c -> D c) -> unitOK air D w -> unitOK air D' w.
Proof.
  intros HI [A1 A2 A3 A4 A5]. constructor; auto. eapply Forall_impl; [|exact A4]. intros h [B1 B2 B3 B4 B5 B6 B7]. constructor; auto.
  intros HT v cond p HC. apply B2; auto.
Qed.
Lemma runs_range fuel D lo hi rows : forall (w : hpwh R) ws wl, (forall air, In air (map r_ext rows) -> unitOK air D w) -> (forall c, lo <= c <= hi -> D c) ->
  calmUnit lo hi w -> w_doDepress w = false -> (forall r, In r rows -> lo <= r_amb r <= hi /\ lo <= r_inletT r <= hi) ->
  SeqProofs.runs fuel rows w ws wl -> Forall (fun v => within lo hi (t_Ts (w_tank v))) ws.
Proof.
  intros w ws wl HU HD HC HN HR HX. set (B := fun c => lo <= c <= hi) in *.
  assert (HU' : forall air, In air (map r_ext rows) -> unitOK air B w) by (intros air HI; eapply unitOK_sub; [exact HD|auto]).
  assert (HCv : coveredRun B rows w) by (right; exists lo, hi; split; [intros c HI; exact HI|split; [exact HC|split; [exact HN|exact HR]]]). clear HU HC HR.
  revert w ws wl HU' HN HCv HX. induction rows as [|r rows IH]; intros w ws wl HU HN HCv HX; inversion HX as [|r0 rows0 wa w1 ws0 wb Hstep Hrest]; subst; [constructor|].
  unfold runOneStepInlet in Hstep. unfold bind at 1, modify at 1 in Hstep.
  pose proof (coveredRun_first _ _ _ _ HCv) as HCf.
  pose proof (fun HX => coveredRun_next B fuel r rows w w1 HX Hstep HCv) as HCn. cbv zeta in HCn.
  set (w0 := setInletT (r_inletT r) w) in *.
  assert (P1 : w_doDepress w0 = false) by (unfold w0; destruct w; exact HN).
  assert (P3 : forall air, unitOK air B w -> unitOK air B w0) by (intros air [O1 O2 O3 O4 O5]; constructor; auto).
  clearbody w0.
  assert (Ea : sourceAir w0 (row_step r) = r_ext r) by (unfold sourceAir; rewrite P1; reflexivity).
  assert (HU0 : unitOK (sourceAir w0 (row_step r)) B w0) by (rewrite Ea; apply P3, HU; left; auto).
  assert (HS : stepRel (row_step r) w0 w1) by (apply (step_rel fuel _ B); [exact HU0|exact HCf|right; intros ? []|intros []; reflexivity|exact Hstep]).
  specialize (HCn HU0).
  assert (HW : within lo hi (t_Ts (w_tank w1))).
  { destruct HCf as [HB|(lo' & hi' & HB & HC)].
    - intros c _. apply HB.
    - assert (HY : within lo' hi' (t_Ts (w_tank w1))) by (eapply (step_range fuel (row_step r) w0 w1 B); eauto). intros c HI. apply HB. apply HY. auto. }
  constructor; auto. eapply (IH w1); eauto.
  - intros air HI. eapply stepRel_unitOK; [exact HS|]. apply P3. apply HU. right. auto.
  - rewrite (sr_dep _ _ _ HS). auto.
Qed.

(** ** C30 for runs *)
Lemma C30_run_range_fact : forall fuel D lo hi rows (w wl : hpwh R) ws, (forall air, In air (map r_ext rows) -> unitOK air D w) -> (forall c, lo <= c <= hi -> D c) ->
  calmUnit lo hi w -> w_doDepress w = false -> (forall r, In r rows -> lo <= r_amb r <= hi /\ lo <= r_inletT r <= hi) ->
  SeqProofs.runs fuel rows w ws wl -> Forall (fun v => within lo hi (t_Ts (w_tank v))) ws.
Proof. intros fuel D lo hi rows w wl ws HU HD HC HN HR HX. exact (runs_range fuel D lo hi rows w ws wl HU HD HC HN HR HX). Qed.

Lemma nth_repeat_in (a d : R) n i : (i < n)%nat -> nth i (repeat a n) d = a.
Proof. revert i. induction n as [|n IH]; intros i Hi; [lia|]. destruct i; cbn; auto. apply IH. lia. Qed.
Lemma fresh_calm vol ua hs (d : hpwh R) lo hi : freshUnit vol ua hs d -> w_tank d = calcSizeConstants (w_tank d) -> 0 < vol -> 0 <= ua <= 100 * vol ->
  lo <= 475 / 9 <= hi -> Forall (fun h => ~ multiPass h) hs -> calmUnit lo hi d.
Proof.
  intros HF HS HV HU HB HM. destruct HF as [A1 A2 A3 A4 A5 A6 A7 A8 A9 A10 A11 A12 A13 A14 A15 A16 A17 A18].
  assert (HN : length (t_Ts (w_tank d)) = 12%nat) by (rewrite A2; reflexivity).
  destruct (C37_size_constants_fact (w_tank d)) as (S1 & S2 & S3 & S4 & S5 & S6 & S7); [lra|rewrite A2; discriminate|]. rewrite <- HS in S1, S2, S3, S4, S5, S6, S7. rewrite HN, A3 in *.
  assert (H12 : INR 12 = 12) by (cbn; lra). rewrite H12 in *. destruct A14 as (T1 & T2 & T3). destruct A11 as (A11 & _).
  pose proof F127 as HT. num_simpl.
  destruct (C37_one_cylinder_fact vol HV) as (r & (HR & HC) & E & _). rewrite E in S6.
  constructor; rewrite ?T2, ?T3, ?A4, ?A9, ?A11, ?HT; try lra; auto.
  - apply A8.
  - intros i Hi. rewrite A2 in *. rewrite repeat_length in Hi. unfold node. rewrite !nth_repeat_in by lia. lra.
  - rewrite A1. exact HM.
  - intros c HI. rewrite A2 in HI. apply repeat_spec in HI. subst c. rewrite HT. lra.
  - intros ends ->. rewrite HN. cbn [Nat.eqb]. rewrite H12, S7. replace (t_nodeVol (w_tank d)) with (vol / 12) by lra.
    unfold CPWATER, DENSITYWATER, dec. num_simpl. set (ft := t_fracTop (w_tank d)) in *. replace (t_fracSide (w_tank d)) with (1 - 2 * ft) by lra.
    assert (EF : ft = 2 / 23) by lra. rewrite EF. apply (Rmult_le_reg_r vol); [lra|]. 
    match goal with |- ?a <= _ => replace a with (ua * (1 / 60 * (2 / 23 + (1 - 4 / 23) / 12) / (418 / 100 * (995 / 1000) / 12))) end.
    + lra.
    + field. lra.
Qed.

Lemma C91_range_fact : forall jt jb vol EF upper lower (w w' : hpwh R), initResistanceTank jt jb vol EF upper lower w = (Ok tt, w') ->
  t_UA (w_tank w') <= 100 * vol ->
  forall fuel rows ws wl lo hi, lo <= 475 / 9 <= hi -> (forall r, In r rows -> lo <= r_amb r <= hi /\ lo <= r_inletT r <= hi) ->
  SeqProofs.runs fuel rows w' ws wl -> Forall (fun v => within lo hi (t_Ts (w_tank v))) ws.
Proof.
  intros jt jb vol EF upper lower w w' E HU fuel rows ws wl lo hi HB HR HX. destruct (rt_unit _ _ _ _ _ _ _ _ E) as (HK & HF & HU0 & HS & HV).
  apply (C30_run_range_fact fuel (fun _ => True) lo hi rows w' wl ws); auto.
  - intros air _. apply HK.
  - eapply fresh_calm; eauto. destruct (C89_result_fact _ _ _ _ _ _ _ _ E) as (_ & _ & HT & _). apply Forall_forall. intros h HI (HM & _).
    assert (HY : In (h_type h) (map h_type (w_hs w'))) by (apply in_map; auto). rewrite HT, HM in HY. destruct (Rlt_dec 0 upper); cbn [In] in HY; intuition discriminate.
  - apply HF.
Qed.

Lemma C91_example_fact : forall jt jb (w : hpwh R), exists w' w2, initResistanceTank jt jb 180 (98 / 110) 4500 4500 w = (Ok tt, w') /\
  runNSteps 145 [mkrow (T:=R) 10 3 20 20 0%Z; mkrow 15 5 20 20 0%Z] w' = (Ok tt, w2) /\ t_UA (w_tank w') <= 100 * 180.
Proof.
  intros jt jb w. destruct (proj1 (C89_accepts_fact jt jb 180 (98 / 110) 4500 4500 w)) as (w' & E); [lra|]. exists w'.
  destruct (C91_run_fact _ _ _ _ _ _ _ _ E ltac:(lra) 145 [mkrow (T:=R) 10 3 20 20 0%Z; mkrow 15 5 20 20 0%Z]) as (w2 & E2 & _).
  - lia.
  - intros r HI. assert (HF : 144 <= INR 145) by (rewrite INR_IZR_INZ; cbn; lra). cbn [In] in HI. destruct HI as [<-|[<-|[]]]; cbn [r_draw]; lra.
  - cbn. lra.
  - exists w2. splits; auto. pose proof (C90_example_fact jt jb w w' E). lra.
Qed.

(** ** C92 *)
Lemma defaults_keep (w : hpwh R) : let d := setAllDefaults w in w_hs d = [] /\ w_compIx d = w_compIx w /\ w_lowIx d = w_lowIx w /\ t_Ts (w_tank d) = [] /\ w_setFixed d = false.
Proof. destruct w. cbv zeta. splits; reflexivity. Qed.
Lemma blank0_keep (w : hpwh R) : w_hs (blank0 w) = w_hs w /\ w_compIx (blank0 w) = w_compIx w /\ w_lowIx (blank0 w) = w_lowIx w /\ w_setFixed (blank0 w) = w_setFixed w.
Proof. destruct w. splits; reflexivity. Qed.
Lemma stale_index (v : hpwh R) : w_hs v = [] -> w_setFixed v = false -> (0 <= w_compIx v)%Z ->
  hasCompressor v = true /\ (forall u, exists m, getMaxCompressorSetpoint u v = UB m) /\ forall new, exists m, isNewSetpointPossible new U_C v = UB m.
Proof.
  intros HH HF HC. assert (HC' : hasCompressor v = true) by (apply Z.leb_le; auto). splits; auto.
  - intros u. unfold getMaxCompressorSetpoint, compressor. rewrite HC', HH. replace (w_compIx v <? 0)%Z with false by (symmetry; apply Z.ltb_ge; auto). destruct (Z.to_nat (w_compIx v)); cbn [nth_error obind]; eauto.
  - intros new. unfold isNewSetpointPossible, setpointPossible. cbn [tempToC obind]. rewrite HF, HC', HH. destruct (Z.to_nat (w_compIx v)); cbn [nth_error obind]; eauto.
Qed.

Lemma C92_rejected_fact : forall jt jb vol EF upper lower e (w w' : hpwh R), initResistanceTank jt jb vol EF upper lower w = (Err e, w') ->
  w_hs w' = [] /\ hasCompressor w' = hasCompressor w /\ (550 <= lower -> 0 <= upper -> 0 < EF -> vol <= 0) /\ (~ (550 <= lower /\ 0 <= upper /\ 0 < EF) -> t_Ts (w_tank w') = []) /\
  (hasCompressor w = true -> (forall u, exists m, getMaxCompressorSetpoint u w' = UB m) /\ forall new, exists m, isNewSetpointPossible new U_C w' = UB m).
Proof.
  intros jt jb vol EF upper lower e w w' E.
  assert (HV : ~ validRT vol EF upper lower). { intros HV. destruct (rt_ok jt jb vol EF upper lower w HV) as (v & _ & _ & E'). rewrite E' in E. discriminate. }
  assert (HK : w_hs w' = [] /\ w_compIx w' = w_compIx w /\ w_setFixed w' = false /\ (~ (550 <= lower /\ 0 <= upper /\ 0 < EF) -> t_Ts (w_tank w') = [])).
  { rewrite rt_unfold in E. pose proof (defaults_hs w) as HH. destruct (defaults_keep w) as (K1 & K2 & K3 & K4 & K5). generalize dependent (setAllDefaults w). intros u E HH K1 K2 K3 K4 K5. unfold rtBody in E.
    destruct (Rltb lower 550) eqn:E1; [inversion E; subst; auto|].
    destruct (Rltb upper 0) eqn:E2; [inversion E; subst; auto|].
    destruct (Rleb EF 0) eqn:E3; [inversion E; subst; auto|]. bcase.
    assert (HL : vol <= 0). { destruct (Rle_dec vol 0); auto. exfalso. apply HV. unfold validRT. lra. }
    erewrite bind_ok in E by apply modify_ok. rewrite HH in E. erewrite bind_err in E by (apply blank_err; auto). inversion E; subst w' e.
    destruct (blank0_keep u) as (B1 & B2 & B3 & B4). rewrite B1, B2, B4. splits; auto. intros HX. exfalso. apply HX. lra. }
  destruct HK as (K1 & K2 & K3 & K4). assert (HC : hasCompressor w' = hasCompressor w) by (unfold hasCompressor; rewrite K2; auto).
  splits; auto.
  - intros A1 A2 A3. destruct (Rle_dec vol 0); auto. exfalso. apply HV. unfold validRT. lra.
  - intros HX. apply stale_index; auto. apply Z.leb_le. rewrite <- HC in HX. exact HX.
Qed.

Lemma C92_compressor_known_refuted_fact : exists jt jb vol EF upper lower e (w w' : hpwh R), initResistanceTank jt jb vol EF upper lower w = (Err e, w') /\
  hasCompressor w' = true /\ ~ exists x, getMaxCompressorSetpoint U_C w' = Ok x.
Proof.
  pose (j := exHS (T:=R) TResistance false None [] [] [] 0). pose (w := exUnit (T:=R) [20; 30; 45; 50]).
  assert (HC : hasCompressor w = true) by reflexivity.
  destruct (proj2 (C89_accepts_fact j j 180 (95 / 100) 4500 500 w)) as (e & w' & E); [lra|].
  destruct (C92_rejected_fact _ _ _ _ _ _ _ _ _ E) as (_ & H1 & _ & _ & H2). exists j, j, 180, (95 / 100), 4500, 500, e, w, w'. split; [auto|]. split; [congruence|].
  intros (x & EX). destruct (H2 HC) as (H3 & _). destruct (H3 U_C) as (m & EM). congruence.
Qed.

(** ** C93 *)
Definition gSources (jt jb : hsrc R) (upper lower : R) : list (hsrc R) :=
  ((if Rlt_dec 0 upper then [upperElement upper (if Rlt_dec 0 lower then Some 1%nat else None) jt] else [])
   ++ (if Rlt_dec 0 lower then [lowerElement lower jb] else []))%list.
Definition gBody (jt jb : hsrc R) (vol Rv upper lower : R) (u : hpwh R) : outc unit * hpwh R :=
  (if Rltb lower 0 then throw "Lower resistance tank wattage below 0 W."
   else if Rltb upper 0 then throw "Upper resistance tank wattage below 0 W."
   else if Rleb Rv 0 then throw "R-Value is equal to or below 0."
   else bind (blankTank vol) (fun _ => bind (modify (set_w_canScale true)) (fun _ =>
      bind (modify (set_w_hs ((if Rltb 0 upper then [upperElement upper (if Rltb 0 lower then Some 1%nat else None) jt] else []) ++ (if Rltb 0 lower then [lowerElement lower jb] else [])))) (fun _ =>
      bind (lift (div_chk (getSurfaceArea_static vol U_L U_M2) Rv)) (fun ua => bind (setTankUA (ua * sec_per_hr / 1000)) (fun _ => bind clampUA (fun _ => finishInit))))))) u.
Lemma g_unfold jt jb vol Rv upper lower w : initResistanceTankGeneric jt jb vol Rv upper lower w = gBody jt jb vol Rv upper lower (set_w_hs [] (setAllDefaults w)).
Proof. reflexivity. Qed.
Lemma rlt_if {A} a b (x y : A) : (if Rltb a b then x else y) = (if Rlt_dec a b then x else y).
Proof. destruct (Rlt_dec a b) as [L|L]; [rewrite (proj2 (Rltb_true a b)) by lra|rewrite (proj2 (Rltb_false a b)) by lra]; reflexivity. Qed.
Lemma area_pos vol : 0 < vol -> 0 < surfaceArea_m2 (T:=R) vol.
Proof.
  intros HV. destruct (C37_one_cylinder_fact vol HV) as (r & (HR & _) & _ & ->). assert (HQ : 0 < r * r) by nra. set (q := r * r) in *.
  replace (2 * (314159 / 100000 * q) + 2 * (314159 / 100000) * r * (475 / 100 * r)) with (2 * (314159 / 100000 * q) + 2 * (314159 / 100000) * (475 / 100) * q) by (unfold q; ring).
  apply Rdiv_lt_0_compat; [apply Rdiv_lt_0_compat|]; lra.
Qed.
Lemma fresh_scale vol ua hs (v : hpwh R) b : freshUnit vol ua hs v -> freshUnit vol ua hs (set_w_canScale b v) /\ w_canScale (set_w_canScale b v) = b.
Proof. intros [A1 A2 A3 A4 A5 A6 A7 A8 A9 A10 A11 A12 A13 A14 A15 A16 A17 A18]. split; [constructor; wsimpl; auto|reflexivity]. Qed.
Lemma g_run jt jb vol Rv upper lower (w : hpwh R) : 0 <= lower -> 0 <= upper -> 0 < Rv -> 0 < vol ->
  exists v, freshUnit vol (surfaceArea_m2 vol / Rv * 3600 / 1000) (gSources jt jb upper lower) v /\ w_canScale v = true /\ initResistanceTankGeneric jt jb vol Rv upper lower w = finishInit v.
Proof.
  intros H1 H2 H3 H4. rewrite g_unfold, defaults_hs. unfold gBody.
  rewrite (proj2 (Rltb_false lower 0)), (proj2 (Rltb_false upper 0)), (proj2 (Rleb_false Rv 0)) by lra.
  erewrite bind_ok by (apply blank_run; auto). destruct (blank_fresh vol w) as (HF & _). generalize dependent (blank vol (setAllDefaults w)). intros b HF.
  destruct (fresh_scale _ _ _ _ true HF) as (HF' & HC). erewrite bind_ok by apply modify_ok. generalize dependent (set_w_canScale true b). intros c HF' HC.
  erewrite bind_ok by apply modify_ok. rewrite !rlt_if. fold (gSources jt jb upper lower). 
  assert (ED : div_chk (getSurfaceArea_static vol U_L U_M2) Rv = Ok (surfaceArea_m2 vol / Rv)).
  { unfold div_chk, getSurfaceArea_static. num_simpl. replace (Reqb' Rv 0) with false by (symmetry; apply Reqb'_false; lra). reflexivity. }
  rewrite ED. erewrite bind_ok by reflexivity. unfold setTankUA, clampUA. rewrite !modify_seq. wsimpl.
  unfold sec_per_hr, sec_per_min, min_per_hr, dec. num_simpl. pose proof (area_pos vol H4) as HA.
  assert (HP : 0 < surfaceArea_m2 vol / Rv) by (apply Rdiv_lt_0_compat; lra).
  replace (60 * 60) with 3600 by ring. rewrite (proj2 (Rltb_false _ 0)) by (clear - HP; lra).
  exists (set_w_tank (set_t_UA (surfaceArea_m2 vol / Rv * 3600 / 1000) (w_tank c)) (set_w_hs (gSources jt jb upper lower) c)). split; [eapply fresh_set; eauto|]. split; auto.
Qed.
Lemma g_plain jt jb upper lower : 0 < upper \/ 0 < lower -> gSources jt jb upper lower <> [] /\ Forall (plainElement (length (gSources jt jb upper lower))) (gSources jt jb upper lower).
Proof.
  intros HL. unfold gSources. destruct (Rlt_dec 0 upper); destruct (Rlt_dec 0 lower); cbn [app length]; try (exfalso; lra); (split; [discriminate|]).
  - apply Forall_cons; [apply upper_plain; auto; intros b E; inversion E; lia|]. apply Forall_cons; [apply lower_plain; lra|apply Forall_nil].
  - apply Forall_cons; [apply upper_plain; auto; intros b E; discriminate E|apply Forall_nil].
  - apply Forall_cons; [apply lower_plain; lra|apply Forall_nil].
Qed.
Lemma g_ok jt jb vol Rv upper lower (w : hpwh R) : 0 <= lower -> 0 <= upper -> 0 < Rv -> 0 < vol -> 0 < upper \/ 0 < lower -> exists v,
  freshUnit vol (surfaceArea_m2 vol / Rv * 3600 / 1000) (gSources jt jb upper lower) v /\ w_canScale v = true /\ initResistanceTankGeneric jt jb vol Rv upper lower w = (Ok tt, calcDerivedValues v).
Proof.
  intros H1 H2 H3 H4 H5. destruct (g_run jt jb vol Rv upper lower w H1 H2 H3 H4) as (v & HF & HC & E). exists v. splits; auto. rewrite E.
  destruct (g_plain jt jb upper lower H5). eapply elements_finish; eauto. pose proof (area_pos vol H4). assert (0 < surfaceArea_m2 vol / Rv) by (apply Rdiv_lt_0_compat; lra). lra.
Qed.
Lemma g_err jt jb vol Rv upper lower (w : hpwh R) : ~ (0 <= lower /\ 0 <= upper /\ 0 < Rv /\ 0 < vol /\ (0 < upper \/ 0 < lower)) -> exists e w',
  initResistanceTankGeneric jt jb vol Rv upper lower w = (Err e, w') /\ w_hs w' = [].
Proof.
  intros HV. destruct (Classical_Prop.classic (0 <= lower /\ 0 <= upper /\ 0 < Rv /\ 0 < vol)) as [(H1 & H2 & H3 & H4)|HN].
  - destruct (g_run jt jb vol Rv upper lower w H1 H2 H3 H4) as (v & HF & HC & E). rewrite E. unfold finishInit. erewrite bind_ok by apply modify_ok.
    assert (EG : gSources jt jb upper lower = []). { unfold gSources. destruct (Rlt_dec 0 upper); destruct (Rlt_dec 0 lower); try reflexivity; exfalso; apply HV; splits; auto; lra. }
    rewrite EG in HF. pose proof (fresh_derived _ _ _ _ HF) as HD. destruct (C59_rejects_fact v) as (e & EE).
    { intros HA. destruct (ac_sources _ HA) as [HX|HX]; [apply HX; rewrite (fu_hs _ _ _ _ HD); reflexivity|rewrite (fu_model _ _ _ _ HD) in HX; discriminate]. }
    exists e, (calcDerivedValues v). split; [|apply HD]. erewrite bind_ok by reflexivity. unfold lift. apply bind_err. rewrite EE. reflexivity.
  - rewrite g_unfold, defaults_hs. destruct (defaults_keep w) as (K1 & _). generalize dependent (setAllDefaults w). intros u K1. unfold gBody.
    destruct (Rltb lower 0) eqn:E1; [eexists _, _; split; [reflexivity|auto]|].
    destruct (Rltb upper 0) eqn:E2; [eexists _, _; split; [reflexivity|auto]|].
    destruct (Rleb Rv 0) eqn:E3; [eexists _, _; split; [reflexivity|auto]|]. bcase.
    assert (HL : vol <= 0). { destruct (Rle_dec vol 0); auto. exfalso. apply HN. lra. }
    eexists _, _. split; [apply bind_err, blank_err; auto|]. destruct (blank0_keep u) as (-> & _). auto.
Qed.

Lemma C93_accepts_fact : forall jt jb vol Rv upper lower (w : hpwh R),
  let ok := 0 <= lower /\ 0 <= upper /\ 0 < Rv /\ 0 < vol /\ (0 < upper \/ 0 < lower) in
  (ok -> exists w', initResistanceTankGeneric jt jb vol Rv upper lower w = (Ok tt, w')) /\
  (~ ok -> exists e w', initResistanceTankGeneric jt jb vol Rv upper lower w = (Err e, w') /\ w_hs w' = []).
Proof.
  intros jt jb vol Rv upper lower w. cbv zeta. split; intros HV.
  - destruct HV as (H1 & H2 & H3 & H4 & H5). destruct (g_ok jt jb vol Rv upper lower w H1 H2 H3 H4 H5) as (v & _ & _ & E). eauto.
  - apply g_err; auto.
Qed.

Lemma C93_result_fact : forall jt jb vol Rv upper lower (w w' : hpwh R), initResistanceTankGeneric jt jb vol Rv upper lower w = (Ok tt, w') ->
  freshUnit vol (t_UA (w_tank w')) (w_hs w') w' /\ w_canScale w' = true /\
  t_UA (w_tank w') * Rv = surfaceArea_m2 vol * (36 / 10) /\
  map h_power (w_hs w') = ((if Rlt_dec 0 upper then [upper / 1000] else []) ++ (if Rlt_dec 0 lower then [lower / 1000] else []))%list /\
  Forall (fun h => h_type h = TResistance /\ h_on h = false) (w_hs w') /\
  forall air D, unitOK air D w' /\ unitReady air D w'.
Proof.
  intros jt jb vol Rv upper lower w w' E. destruct (Classical_Prop.classic (0 <= lower /\ 0 <= upper /\ 0 < Rv /\ 0 < vol /\ (0 < upper \/ 0 < lower))) as [(H1 & H2 & H3 & H4 & H5)|HV].
  2:{ destruct (g_err jt jb vol Rv upper lower w HV) as (e & v & E' & _). rewrite E' in E. discriminate. }
  destruct (g_ok jt jb vol Rv upper lower w H1 H2 H3 H4 H5) as (v & HF & HC & E'). rewrite E' in E. inversion E; subst w'. clear E E'.
  pose proof (fresh_derived _ _ _ _ HF) as HD. destruct (g_plain jt jb upper lower H5) as (P1 & P2).
  assert (HS : w_tank (calcDerivedValues v) = calcSizeConstants (w_tank (calcDerivedValues v))) by (rewrite (fresh_sized _ _ _ _ HF), size_idem; reflexivity).
  assert (P3 : Forall (plainElement (length (map (deriveHS 12) (gSources jt jb upper lower)))) (map (deriveHS 12) (gSources jt jb upper lower))).
  { rewrite map_length. rewrite Forall_forall in *. intros h HI. apply in_map_iff in HI. destruct HI as (g & <- & HI). apply plain_derive. auto. }
  rewrite (fu_UA _ _ _ _ HD), (fu_hs _ _ _ _ HD). split; [exact HD|]. split; [rewrite <- HC; rewrite derived_form; unfold derivedOf; cbv zeta; generalize (scanHS (mkscan (-1) (-1) (-1) (-1) (nofZ 1) (nofZ 0)) 0 (map (deriveHS (numNodes (w_tank v))) (w_hs v))); intros s; generalize (sortPos (resPoints (map (deriveHS (numNodes (w_tank v))) (w_hs v)) 0)); intros r; generalize (map (deriveHS (numNodes (w_tank v))) (w_hs v)); intros ds; generalize (calcSizeConstants (w_tank v)); intros t; destruct v; reflexivity|].
  split; [field; lra|]. split; [|split; [|]].
  - rewrite map_map. assert (HX : forall h : hsrc R, h_power (deriveHS 12 h) = h_power h) by (intros h; unfold deriveHS; wsimpl; auto).
    assert (HX1 : forall watts f j, h_power (upperElement (T:=R) watts f j) = watts / 1000) by (intros; unfold upperElement, setupRes; generalize (newElement (T:=R) j); intros h; wsimpl; num_simpl; reflexivity).
    assert (HX2 : forall watts j, h_power (lowerElement (T:=R) watts j) = watts / 1000) by (intros; unfold lowerElement, setupRes; generalize (newElement (T:=R) j); intros h; wsimpl; num_simpl; reflexivity).
    unfold gSources. destruct (Rlt_dec 0 upper); destruct (Rlt_dec 0 lower); cbn [app map]; rewrite ?HX, ?HX1, ?HX2; reflexivity.
  - eapply Forall_impl; [|exact P3]. intros h HP. split; apply HP.
  - intros air D. split; [eapply elements_ok; eauto|]. eapply elements_ready; eauto. pose proof (area_pos vol H4). assert (0 < surfaceArea_m2 vol / Rv) by (apply Rdiv_lt_0_compat; lra). lra.
Qed.

Lemma C93_example_fact : forall jt jb (w : hpwh R), (exists w', initResistanceTankGeneric jt jb 200 2 0 3000 w = (Ok tt, w')) /\ (exists e w', initResistanceTankGeneric jt jb 200 2 0 0 w = (Err e, w')).
Proof.
  intros jt jb w. split; [apply C93_accepts_fact; lra|]. destruct (proj2 (C93_accepts_fact jt jb 200 2 0 0 w)) as (e & w' & E & _); [lra|eauto].
Qed.
