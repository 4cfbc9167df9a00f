(** Proofs of the theorems stated in PropsExtPresets.v: Properties of the preset units with an external compressor *)

From Coq Require Import ZArith QArith Qreals String List Bool Reals Lra Lia Floats Sorting.Sorted.
From Verif Require Import Num FNum Base Units Utils Types TankM Logic HeatSrc Step Setters Config Perf Rating Fitter DataModel Init Legacy ExtPreset ExtTable Spec SpecState SpecDist SpecEnergy SpecStep SpecExt SpecExtPreset.
From Verif Require Import RList FrameProofs SimFrame MixProofs DistProofs TankFacts ControlProofs SeqProofs WholeStep Progress StepProgress EnergyFacts SettersFacts SourcesFacts ConfigFacts PerfFacts InitsFacts InitGenFacts LegacyFacts ExtRunFacts Example.
Import ListNotations.
Local Open Scope R_scope.
(** ** Heating logics on one twelfth of the tank *)
Definition node12 (n : Z) : bool := (1 <=? n)%Z && (n <=? 12)%Z.
Lemma node_good n : node12 n = true -> d_type (nodesDist (T:=R) [n]) = DWeighted /\ goodDist (d_w (nodesDist (T:=R) [n])) /\
  forall (w : hpwh R) s x ab cm hts, l_nodeWeightAvgFract w (TempLogic s (nodesDist [n]) x ab cm hts false) = IZR n / 12.
Proof.
  unfold node12. intros HN. apply andb_prop in HN. destruct HN as (H1 & H2). apply Z.leb_le in H1. apply Z.leb_le in H2.
  unfold nodesDist. replace (Z.eqb n 0) with false by (symmetry; apply Z.eqb_neq; lia). replace (Z.eqb n (Z.of_nat LOGIC_SIZE + 1)) with false by (symmetry; apply Z.eqb_neq; unfold LOGIC_SIZE; lia).
  cbn [last]. assert (B1 : 1 <= IZR n) by (apply IZR_le; auto). assert (B2 : IZR n <= 12) by (apply IZR_le; auto).
  unfold LOGIC_SIZE. rewrite nofN_R. replace (INR 12) with 12 by (cbn; lra). num_simpl. set (k := IZR n) in *. clearbody k.
  cbn [d_type d_w l_nodeWeightAvgFract]. split; [reflexivity|].
  destruct (Rltb 0 (k - 1)) eqn:E1; destruct (Rltb (k - 1 + 1) 12) eqn:E2; bcase; cbn [app].
  - split.
    + constructor; [discriminate|cbn; lra|repeat constructor; cbn; lra|]. apply Exists_cons_tl, Exists_cons_hd. cbn. lra.
    + intros. cbn [fold_left]. unfold LOGIC_SIZE. rewrite nofN_R. replace (INR 12) with 12 by (cbn; lra). unfold dec. num_simpl. field. lra.
  - split.
    + constructor; [discriminate|cbn; lra|repeat constructor; cbn; lra|]. apply Exists_cons_tl, Exists_cons_hd. cbn. lra.
    + intros. cbn [fold_left]. unfold LOGIC_SIZE. rewrite nofN_R. replace (INR 12) with 12 by (cbn; lra). unfold dec. num_simpl. replace k with 12 by lra. field.
  - split.
    + constructor; [discriminate|cbn; lra|repeat constructor; cbn; lra|]. apply Exists_cons_hd. cbn. lra.
    + intros. cbn [fold_left]. unfold LOGIC_SIZE. rewrite nofN_R. replace (INR 12) with 12 by (cbn; lra). unfold dec. num_simpl. replace k with 1 by lra. field.
  - exfalso. lra.
Qed.
(** the height of what a turn-on logic looks at *)
Definition xlgood (l : xlogic) : bool := match l with XNode s n x _ _ _ => node12 n && qok x && negb (String.eqb s "large draw" || String.eqb s "larger draw") | XStandby x => qok x end.
Definition xheight (l : xlogic) : Q := match l with XNode _ n _ _ _ _ => Qmake n 12 | XStandby _ => 1 end.
Lemma xlogic_good l : xlgood l = true -> (exists s d x ab cm hts sb, xlogicOf (T:=R) l = TempLogic s d x ab cm hts sb /\ Forall (fun p => 0 <= snd p) (d_w d) /\ (d_type d = DWeighted -> goodDist (d_w d))) /\
  (forall w : hpwh R, l_nodeWeightAvgFract w (xlogicOf l) = Q2R (xheight l)).
Proof.
  destruct l as [s n x ab cm hts|x]; cbn [xlgood xlogicOf xheight]; intros HO.
  - apply andb_prop in HO. destruct HO as (HO & _). apply andb_prop in HO. destruct HO as (HN & _). destruct (node_good n HN) as (T1 & G & A). split.
    + eexists _, _, _, _, _, _, _. split; [reflexivity|]. split; [apply (gd_nonneg _ G)|auto].
    + intros w. rewrite A. unfold Q2R. cbn. field.
  - unfold standbyTop. split.
    + eexists _, _, _, _, _, _, _. split; [reflexivity|]. cbn [d_w d_type]. split; [apply Forall_nil|discriminate].
    + intros w. cbn [l_nodeWeightAvgFract d_type]. num_simpl. unfold Q2R. cbn. field.
Qed.
(** ** The compressor *)
Definition triple {A} (o : option (lnum * lnum * lnum)) (f : R * R * R -> A) (d : R * R * R) : A := match o with Some (a, b, c) => f (lval a, lval b, lval c) | None => f d end.
Record xComp (p : xpreset) (ev : R -> R -> R -> perf R) (bk : option nat) (h : hsrc R) : Prop := {
  xc_type : h_type h = TCompressor; xc_on : h_on h = false; xc_air : h_airflow h = 1; xc_vip : h_vip h = true;
  xc_config : h_config h = External; xc_multi : h_multipass h = xp_multi p;
  xc_ports : h_extOut h = 0%Z /\ h_extIn h = xreturnOf (xp_nodes p) (xp_return p);
  xc_links : h_backup h = bk /\ h_companion h = None /\ h_followed h = None;
  xc_turnOn : h_turnOn h = map xlogicOf (xp_on p); xc_shutOff : h_shutOff h = [xlogicOf (xp_off p)]; xc_standby : h_standby h = option_map xlogicOf (xp_standby p);
  xc_dist : h_dist h = wd_of_nodes (map (nofZ (T:=R)) (xp_shape p));
  xc_range : h_minT h = lval (xp_minT p) /\ h_maxT h = odef 100 (xp_maxT p) /\ h_hyst h = lval (xp_hyst p);
  xc_maxSet : h_maxSet h = lval (xp_maxSet p);
  xc_flow : forall x, xp_flow p = Some x -> h_mpFlow h = GPM_TO_LPS (lval x);
  xc_low : h_mlOut h = match xp_low p with Some (o, _) => lval o | None => 100 end /\ h_mlAir h = match xp_low p with Some (_, a) => lval a | None => -27315 / 100 end;
  xc_rd : (h_rdPwr h, h_rdLift h, h_rdBelow h) = triple (xp_resDefrost p) (fun x => x) (0, 0, -999);
  xc_shx : (h_shxCold h, h_shxHot h, h_shxPump h) = triple (xp_shx p) (fun x => x) (0, 0, 0);
  xc_defrost : h_doDefrost h = xp_defrost p /\ h_defrost h = (if xp_defrost p then [(17, 1); (35, 8865 / 10000); (47, 1)] else []);
  xc_scale : h_inScale h = 1 /\ h_copScale h = 1;
  xc_eval : h_eval h = ev
}.
Record freshFacts (h : hsrc R) : Prop := {
  ff_1 : h_type h = TCompressor; ff_2 : h_on h = false; ff_3 : h_airflow h = 1; ff_4 : h_companion h = None; ff_5 : h_followed h = None; ff_6 : h_maxT h = 100;
  ff_7 : h_mlOut h = 100; ff_8 : h_mlAir h = -27315 / 100; ff_9 : h_rdPwr h = 0; ff_10 : h_rdLift h = 0; ff_11 : h_rdBelow h = -999; ff_12 : h_shxCold h = 0; ff_13 : h_shxHot h = 0; ff_14 : h_shxPump h = 0;
  ff_15 : h_doDefrost h = false; ff_16 : h_defrost h = []; ff_17 : h_inScale h = 1; ff_18 : h_copScale h = 1 }.
Lemma fresh_facts j : freshFacts (freshCond (T:=R) j).
Proof. unfold freshCond, freshHS. constructor; wsimpl; unfold dec; num_simpl; reflexivity. Qed.
Lemma xcomp_facts p ev bk (j : hsrc R) n : xComp p ev bk (deriveHS n (xcompressor p ev bk j)).
Proof.
  unfold xcompressor, setupDefrostMap, deriveHS. pose proof (fresh_facts j) as HF. generalize dependent (freshCond j). intros f [F1 F2 F3 F4 F5 F6 F7 F8 F9 F10 F11 F12 F13 F14 F15 F16 F17 F18].
  destruct p as [nn sp sf fx cs vol ua sz shp mu ret mn mx hy ms on sb off fl df lw rd sx el].
  cbn [xp_nodes xp_setpoint xp_setFixed xp_fixed xp_canScale xp_vol xp_UA xp_size xp_shape xp_multi xp_return xp_minT xp_maxT xp_hyst xp_maxSet xp_on xp_standby xp_off xp_flow xp_defrost xp_low xp_resDefrost xp_shx xp_elements].
  destruct mx, fl, df, lw as [[lo la]|], rd as [[[r1 r2] r3]|], sx as [[[x1 x2] x3]|]; cbn [option_map assign]; 
  (constructor;
   cbn [xp_nodes xp_setpoint xp_setFixed xp_fixed xp_canScale xp_vol xp_UA xp_size xp_shape xp_multi xp_return xp_minT xp_maxT xp_hyst xp_maxSet xp_on xp_standby xp_off xp_flow xp_defrost xp_low xp_resDefrost xp_shx xp_elements triple odef]; wsimpl;
   rewrite ?F1, ?F2, ?F3, ?F4, ?F5, ?F6, ?F7, ?F8, ?F9, ?F10, ?F11, ?F12, ?F13, ?F14, ?F15, ?F16, ?F17, ?F18; auto).
  all: try (intros x E; inversion E; subst; reflexivity).
  all: unfold dec; num_simpl; cbn [app]; auto.
Qed.

(** ** The elements *)
Record xElem (top : bool) (watts d : lnum) (h : hsrc R) : Prop := {
  xe_type : h_type h = TResistance; xe_config : h_config h = Wrapped; xe_on : h_on h = false; xe_air : h_airflow h = 1; xe_power : h_power h = lval watts / 1000; xe_vip : h_vip h = top;
  xe_turnOn : h_turnOn h = (if top then [topThird (lval d)] else []); xe_shutOff : h_shutOff h = []; xe_standby : h_standby h = None;
  xe_links : h_backup h = (if top then None else Some 2%nat) /\ h_companion h = (if top then Some 2%nat else None) /\ h_followed h = Some (if top then 1%nat else 2%nat);
  xe_dist : goodDist (h_dist h)
}.
Lemma xelem_top watts d (j : hsrc R) n : xElem true watts d (deriveHS n (set_h_companion (Some 2%nat) (set_h_followed (Some 1%nat) (set_h_vip true (set_h_turnOn [topThird (lval d)] (setupRes 9 (lval watts) (newElement j))))))).
Proof.
  pose proof (setup_good 9 (lval watts) (newElement j) ltac:(lia)) as HG. destruct (fresh_plain j) as (T1 & T2 & T3 & T4 & T5 & T6 & T7 & T8 & T9 & T10). cbv zeta in *. generalize dependent (newElement j). intros e.
  intros. unfold setupRes, deriveHS in *. wsimpl_in HG. constructor; wsimpl; num_simpl; auto.
Qed.
Lemma xelem_bottom watts d (j : hsrc R) n : xElem false watts d (deriveHS n (set_h_backup (Some 2%nat) (set_h_followed (Some 2%nat) (setupRes 0 (lval watts) (newElement j))))).
Proof.
  pose proof (setup_good 0 (lval watts) (newElement j) ltac:(lia)) as HG. destruct (fresh_plain j) as (T1 & T2 & T3 & T4 & T5 & T6 & T7 & T8 & T9 & T10). cbv zeta in *. generalize dependent (newElement j). intros e.
  intros. unfold setupRes, deriveHS in *. wsimpl_in HG. constructor; wsimpl; num_simpl; auto.
Qed.
Inductive xlist (p : xpreset) (ev : R -> R -> R -> perf R) : list (hsrc R) -> Prop :=
| xl_one h : xp_elements p = None -> xComp p ev None h -> xlist p ev [h]
| xl_three watts d t b h : xp_elements p = Some (watts, d) -> xElem true watts d t -> xElem false watts d b -> xComp p ev (Some 1%nat) h -> xlist p ev [t; b; h].
Lemma xsources_facts p ev junk n : xlist p ev (map (deriveHS n) (xsources p ev junk)).
Proof.
  unfold xsources. destruct (xp_elements p) as [[watts d]|] eqn:E; cbn [map].
  - eapply xl_three; [exact E|apply xelem_top|apply xelem_bottom|apply xcomp_facts].
  - apply xl_one; [exact E|apply xcomp_facts].
Qed.
(** ** The unit *)
Definition finalVol (p : xpreset) : R := match xp_size p with Some g => lval g * (378541 / 100000) | None => lval (xp_vol p) end.
Definition finalUA (p : xpreset) : R := match xp_size p with Some g => lval (xp_UA p) * (surfaceArea_m2 (finalVol p) / surfaceArea_m2 (lval (xp_vol p))) | None => lval (xp_UA p) end.
Record xUnit (p : xpreset) (hs : list (hsrc R)) (w : hpwh R) : Prop := {
  xu_hs : w_hs w = hs;
  xu_Ts : t_Ts (w_tank w) = repeat (lval (xp_setpoint p)) (xp_nodes p);
  xu_vol : t_volume (w_tank w) = finalVol p;
  xu_UA : t_UA (w_tank w) = finalUA p;
  xu_inlet : t_inlet (w_tank w) = 0%Z /\ t_inlet2 (w_tank w) = 0%Z;
  xu_mix : t_doMix (w_tank w) = true /\ t_doCond (w_tank w) = true;
  xu_draw : t_mixesOnDraw (w_tank w) = false /\ t_mixBelowFrac (w_tank w) = 1 / 3;
  xu_hx : t_hasHX (w_tank w) = false /\ t_hxEff (w_tank w) = 9 / 10;
  xu_fit : t_fitUA (w_tank w) = 0;
  xu_size : t_fixed (w_tank w) = xp_fixed p;
  xu_sp : w_setpoint w = lval (xp_setpoint p) /\ w_setFixed w = xp_setFixed p;
  xu_soc : w_usesSoC w = false /\ w_SoC w = 1;
  xu_dep : w_doDepress w = false /\ w_locT w = -500;
  xu_step : w_minStep w = 1 /\ w_secStep w = 60 /\ w_hrStep w = 1 / 60;
  xu_dr : w_prevDR w = 0%Z /\ w_timer w = 0 /\ w_timerLimit w = 60;
  xu_model : w_storage w = false /\ w_canScale w = xp_canScale p;
  xu_inlet_T : w_haveInletT w = false /\ w_inletT w = -1;
  xu_heating : w_heating w = false
}.
Lemma size_put (t : tank R) : exists a b c d e f, calcSizeConstants t = putSize a b c d e f t.
Proof. rewrite size_form. unfold sized. cbv zeta. eexists _, _, _, _, _, _. reflexivity. Qed.
Lemma adjust_tank l (t : tank R) : 0 < l -> t_fixed t = false -> exists a b c d e f a' b' c' d' e' f', setVolumeAndAdjustUA l false t =
  (Ok tt, putSize a' b' c' d' e' f' (set_t_UA (t_UA t * (surfaceArea_m2 l / surfaceArea_m2 (t_volume t))) (putSize a b c d e f (set_t_volume l t)))).
Proof.
  intros HL HF. destruct (size_put (set_t_volume l t)) as (a & b & c & d & e & f & E1). unfold setVolumeAndAdjustUA.
  assert (EU : t_UA (putSize a b c d e f (set_t_volume l t)) = t_UA t) by (unfold putSize; wsimpl; reflexivity).
  pose proof (setVolume_ok l t HL HF) as ES. rewrite E1 in ES. remember (putSize a b c d e f (set_t_volume l t)) as t1 eqn:ET.
  destruct (size_put (set_t_UA (nmul (t_UA t1) (ndiv (surfaceArea_m2 l) (surfaceArea_m2 (t_volume t)))) t1)) as (a' & b' & c' & d' & e' & f' & E2).
  exists a, b, c, d, e, f, a', b', c', d', e', f'. unfold bind, get, modify. rewrite ES, E2. rewrite <- ET, EU. num_simpl. reflexivity.
Qed.
Lemma adjust_ok g (w : hpwh R) : 0 < g -> t_fixed (w_tank w) = false -> exists a b c d e f a' b' c' d' e' f', setTankSize_adjustUA g U_GAL false w =
  (Ok tt, set_w_tank (putSize a' b' c' d' e' f' (set_t_UA (t_UA (w_tank w) * (surfaceArea_m2 (g * (378541 / 100000)) / surfaceArea_m2 (t_volume (w_tank w)))) (putSize a b c d e f (set_t_volume (g * (378541 / 100000)) (w_tank w))))) w).
Proof.
  intros HG HF. destruct (adjust_tank (g * (378541 / 100000)) (w_tank w)) as (a & b & c & d & e & f & a' & b' & c' & d' & e' & f' & E); auto; [lra|].
  exists a, b, c, d, e, f, a', b', c', d', e', f'. unfold setTankSize_adjustUA.
  assert (EV : volToL g U_GAL = Ok (g * (378541 / 100000))) by (unfold volToL, GAL_TO_L, L_per_gal, dec; num_simpl; reflexivity).
  unfold lift. rewrite EV. unfold bind. apply onTank_eq. exact E.
Qed.
Definition sizeChk (p : xpreset) : bool := match xp_size p with Some g => qok g && qlt 0 (qv g) && negb (xp_fixed p) | None => true end.
Lemma external_run p ev junk (w : hpwh R) : sizeChk p = true -> exists v, xUnit p (xsources p ev junk) v /\ initExternal p ev junk w = finishInit v.
Proof.
  intros HC. unfold initExternal. rewrite !modify_seq. generalize (xsources p ev junk). intros hs. unfold xtank, setNumNodes, sizeChk in *.
  assert (HX : forall v (k : unit -> M (hpwh R) unit), bind resetTankToSetpoint k v = k tt (set_w_tank (set_t_Ts (map (fun _ => w_setpoint v) (t_Ts (w_tank v))) (w_tank v)) v)).
  { intros v k. erewrite bind_ok by apply reset_ok. reflexivity. }
  destruct (xp_size p) as [g|] eqn:EG.
  - match goal with |- exists v, _ /\ bind ?m ?k ?u = _ => set (u0 := u) end.
    assert (HF : t_fixed (w_tank u0) = false /\ t_UA (w_tank u0) = lval (xp_UA p) /\ t_volume (w_tank u0) = lval (xp_vol p)).
    { unfold u0. wsimpl. destruct (xp_fixed p); [rewrite andb_false_r in HC; discriminate HC|auto]. }
    destruct HF as (HF & HU & HV). apply andb_prop in HC. destruct HC as (HC & _). apply andb_prop in HC. destruct HC as (HQ & HP). apply qlt_R in HP. rewrite Q2R_0, qv_ok in HP by auto.
    destruct (adjust_ok (lval g) u0 HP HF) as (a & b & c & d & e & f & a' & b' & c' & d' & e' & f' & E). erewrite bind_ok by exact E. rewrite HX, HU, HV. clear E HX HU HV HF.
    eexists. split; [|reflexivity]. unfold u0. clear u0. unfold putSize, setAllDefaults, tankDefaults, stepLength.
    constructor; unfold finalUA, finalVol; rewrite ?EG; wsimpl; auto; try apply map_const_firstn;
      unfold sec_per_min, min_per_hr, UNINITIALIZED_LOCATIONTEMP, dec; num_simpl; splits; try reflexivity; try field.
  - assert (HR : forall (k : unit -> M (hpwh R) unit) v, bind (ret tt) k v = k tt v) by reflexivity. rewrite HR, HX.
    eexists. split; [|reflexivity]. unfold setAllDefaults, tankDefaults, stepLength.
    constructor; unfold finalUA, finalVol; rewrite ?EG; wsimpl; auto; try apply map_const_firstn;
      unfold sec_per_min, min_per_hr, UNINITIALIZED_LOCATIONTEMP, dec; num_simpl; splits; try reflexivity; try field.
Qed.
Lemma xunit_derived p hs (v : hpwh R) : xUnit p hs v -> xUnit p (map (deriveHS (xp_nodes p)) hs) (calcDerivedValues v) /\ w_tank (calcDerivedValues v) = calcSizeConstants (w_tank (calcDerivedValues v)).
Proof.
  intros [A1 A2 A3 A4 A5 A6 A7 A8 A9 A10 A11 A12 A13 A14 A15 A16 A17 A18]. rewrite derived_form, A1. unfold numNodes. rewrite A2, repeat_length. split.
  - rewrite size_form. unfold derivedOf. cbv zeta. generalize (scanHS (mkscan (-1) (-1) (-1) (-1) (nofZ 1) (nofZ 0)) 0 (map (deriveHS (xp_nodes p)) hs)). intros s.
    generalize (sortPos (resPoints (map (deriveHS (xp_nodes p)) hs) 0)). intros r. generalize (map (deriveHS (xp_nodes p)) hs). intros ds.
    unfold sized. cbv zeta. generalize (tankRadius_m (t_volume (w_tank v))). intros rad. generalize (npow (Num:=RNum)). intros pw.
    unfold putDerived, putSize. constructor; wsimpl; auto.
  - destruct (derivedOf_keeps (map (deriveHS (xp_nodes p)) hs) (calcSizeConstants (w_tank v)) v) as (-> & _). rewrite size_idem. reflexivity.
Qed.
(** ** Checks of the descriptions *)
Definition xref (p : xpreset) : Q := fold_left (fun a l => qmin (xheight l) a) (xp_on p) 1%Q.
Definition oqok3 (o : option (lnum * lnum * lnum)) : bool := match o with Some (a, b, c) => qok a && qok b && qok c | None => true end.
Definition shxHotQ (p : xpreset) : Q := match xp_shx p with Some (_, h, _) => qv h | None => 0%Q end.
Definition xchk (p : xpreset) : bool :=
  (Nat.eqb (xp_nodes p) 24 || Nat.eqb (xp_nodes p) 96) && qok (xp_setpoint p) && qok (xp_vol p) && qok (xp_UA p) && qok (xp_maxSet p) && qok (xp_minT p) && oqok (xp_maxT p) && oqok3 (xp_shx p) &&
  Qle_bool 160 (qv (xp_vol p)) && Qle_bool 0 (qv (xp_UA p)) && Qle_bool (qv (xp_UA p)) (Qmake 1 20 * qv (xp_vol p)) && sizeChk p &&
  (match xp_size p with Some g => Qle_bool (qv (xp_vol p)) (qv g * Qmake 378541 100000) | None => true end) &&
  (if list_eq_dec Z.eq_dec (xp_shape p) bottomShape then true else if list_eq_dec Z.eq_dec (xp_shape p) fourthShape then true else false) &&
  (match xp_on p with [] => false | _ => true end) && forallb xlgood (xp_on p) && xlgood (xp_off p) &&
  forallb (fun l => Qle_bool (xheight (xp_off p)) (xheight l)) (xp_on p) && Qle_bool (xheight (xp_off p)) 1 && Qle_bool 0 (xheight (xp_off p)) &&
  (match xp_off p with XNode _ _ _ _ CGreater _ => true | _ => false end) &&
  (match xp_standby p with Some (XNode _ 0 x _ _ _) => qok x | Some _ => false | None => true end) &&
  Qle_bool (qv (xp_setpoint p)) (qv (xp_maxSet p) - shxHotQ p) && Qle_bool (qv (xp_setpoint p)) 65 && Qle_bool 50 (qv (xp_setpoint p)) && Qle_bool 0 (shxHotQ p) &&
  (if xp_multi p then match xp_return p with XThird => Nat.eqb (xp_nodes p) 24 | XTop => false end else match xp_return p with XTop => true | XThird => false end) &&
  (match xp_elements p with Some (w, d) => qok w && qlt 0 (qv w) | None => true end).
Lemma all_xchecked (m : xmodel) : xchk (xpresetOf m) = true.
Proof. destruct m; vm_compute; reflexivity. Qed.
Record xGood (p : xpreset) : Prop := {
  xg_nodes : xp_nodes p = 24%nat \/ xp_nodes p = 96%nat;
  xg_vol : 160 <= lval (T:=R) (xp_vol p); xg_UA : 0 <= lval (T:=R) (xp_UA p) <= lval (T:=R) (xp_vol p) / 20; xg_sized : sizeChk p = true;
  xg_size : forall g, xp_size p = Some g -> lval (T:=R) (xp_vol p) <= lval g * (378541 / 100000);
  xg_shape : xp_shape p = bottomShape \/ xp_shape p = fourthShape;
  xg_onne : xp_on p <> []; xg_on : forallb xlgood (xp_on p) = true; xg_off : xlgood (xp_off p) = true;
  xg_heights : forall l, In l (xp_on p) -> Q2R (xheight (xp_off p)) <= Q2R (xheight l); xg_hgt : 0 <= Q2R (xheight (xp_off p)) <= 1;
  xg_greater : exists s n x ab hts, xp_off p = XNode s n x ab CGreater hts;
  xg_standby : xp_standby p = None \/ exists s x ab cm hts, xp_standby p = Some (XNode s 0 x ab cm hts);
  xg_hot : 0 <= Q2R (shxHotQ p) /\ Q2R (shxHotQ p) = triple (xp_shx p) (fun x => snd (fst x)) (0, 0, 0);
  xg_sp : lval (T:=R) (xp_setpoint p) <= lval (xp_maxSet p) - Q2R (shxHotQ p) /\ 50 <= lval (T:=R) (xp_setpoint p) <= 65;
  xg_return : if xp_multi p then xp_return p = XThird /\ xp_nodes p = 24%nat else xp_return p = XTop;
  xg_elems : forall w d, xp_elements p = Some (w, d) -> 0 < lval (T:=R) w
}.
Lemma chk_good p : xchk p = true -> xGood p.
Proof.
  unfold xchk. intros HC. repeat match goal with H : (_ && _)%bool = true |- _ => apply andb_prop in H; destruct H end.
  repeat match goal with G : Qle_bool _ _ = true |- _ => apply qle_R in G end.
  rewrite ?Q2R_mult, ?Q2R_minus, ?qv_ok in * by auto. rewrite ?Q2R_0 in *.
  replace (Q2R 160) with 160 in * by (unfold Q2R; cbn; lra). replace (Q2R 65) with 65 in * by (unfold Q2R; cbn; lra). replace (Q2R 50) with 50 in * by (unfold Q2R; cbn; lra). replace (Q2R 1) with 1 in * by (unfold Q2R; cbn; lra).
  replace (Q2R (Qmake 1 20)) with (1 / 20) in * by (unfold Q2R; cbn; lra).
  constructor; auto; try lra.
  - match goal with G : (_ || _)%bool = true |- _ => apply orb_prop in G; destruct G as [G|G]; apply Nat.eqb_eq in G; auto end.
  - intros g EG. unfold sizeChk in *. rewrite EG in *. match goal with G : Qle_bool _ (_ * _) = true |- _ => apply qle_R in G; rename G into GL end. bsplit. rewrite Q2R_mult, !qv_ok in GL by auto. replace (Q2R (Qmake 378541 100000)) with (378541 / 100000) in GL by (unfold Q2R; cbn; lra). auto.
  - destruct (list_eq_dec Z.eq_dec (xp_shape p) bottomShape); auto. destruct (list_eq_dec Z.eq_dec (xp_shape p) fourthShape); auto. discriminate.
  - destruct (xp_on p); [discriminate|discriminate].
  - intros l HI. match goal with G : forallb (fun l => Qle_bool _ _) _ = true |- _ => rewrite forallb_forall in G; specialize (G l HI); apply qle_R in G; auto end.
  - destruct (xp_off p) as [s n x ab cm hts|]; [|discriminate]. destruct cm; [discriminate|]. eauto 10.
  - destruct (xp_standby p) as [[s n x ab cm hts|]|]; [|discriminate|auto]. destruct n; try discriminate. right. eauto 10.
  - split; auto. unfold shxHotQ, triple, oqok3 in *. destruct (xp_shx p) as [[[a b] c]|]; cbn [fst snd]; [|unfold Q2R; cbn; lra]. bsplit. apply qv_ok; auto.
  - destruct (xp_multi p), (xp_return p); try discriminate; auto. split; auto. apply Nat.eqb_eq; auto.
  - intros w d E. rewrite E in *. bsplit. match goal with G : qlt 0 _ = true |- _ => apply qlt_R in G; rewrite Q2R_0, qv_ok in G by auto; auto end.
Qed.
(** ** Acceptance *)
Lemma xshape_good p : xGood p -> goodDist (wd_of_nodes (map (nofZ (T:=R)) (xp_shape p))).
Proof.
  intros HG. apply nodes_good; destruct (xg_shape _ HG) as [-> | ->]; unfold bottomShape, fourthShape; cbn [map]; num_simpl; [repeat constructor; lra|repeat constructor; lra|apply Exists_cons_hd; lra|do 3 apply Exists_cons_tl; apply Exists_cons_hd; lra].
Qed.
Lemma xlogics_valid ls : forallb xlgood ls = true -> Forall validLogic (map (xlogicOf (T:=R)) ls).
Proof.
  induction ls as [|l ls IH]; cbn [forallb map]; intros HG; [constructor|]. apply andb_prop in HG. destruct HG as (G1 & G2). constructor; auto.
  destruct (xlogic_good l G1) as ((s & d & x & ab & cm & hts & sb & E & _ & G) & _). rewrite E. cbn [validLogic]. intros HT. apply good_valid; auto.
Qed.
Lemma xaqua_ge (w : hpwh R) b ls : forallb xlgood ls = true -> (forall l, In l ls -> b <= Q2R (xheight l)) -> forall a, b <= a ->
  b <= fold_left (fun a l => let x := l_nodeWeightAvgFract w l in if nltb x a then x else a) (map xlogicOf ls) a.
Proof.
  induction ls as [|l ls IH]; cbn [forallb map fold_left]; intros HP HH a HA; auto. apply andb_prop in HP. destruct HP as (G1 & G2). destruct (xlogic_good l G1) as (_ & EW). rewrite EW. cbv zeta. num_simpl. apply IH; auto; [intros q HQ; apply HH; right; auto|].
  destruct (Rltb _ _); auto. apply HH. left. auto.
Qed.
Lemma xuse (p : xpreset) ev bk (w : hpwh R) h : xGood p -> xComp p ev bk h -> useFract w h = 1 - Q2R (xheight (xp_off p)).
Proof.
  intros HG HX. unfold useFract. rewrite (xc_shutOff _ _ _ _ HX). cbn [fold_left]. destruct (xlogic_good _ (xg_off _ HG)) as (_ & EW). rewrite EW.
  destruct (xg_greater _ HG) as (s & n & x & ab & hts & E). pose proof (xg_off _ HG) as GO. pose proof (xg_hgt _ HG) as GH. rewrite E in *. cbn [xlgood] in GO. apply andb_prop in GO. destruct GO as (_ & GO). apply negb_true_iff in GO. cbn [xlogicOf l_desc]. rewrite GO. cbv zeta. num_simpl.
  destruct (Rltb _ _) eqn:EL; [reflexivity|]. apply Rltb_false in EL. lra.
Qed.
Lemma xsizing (p : xpreset) ev bk (w : hpwh R) h : xGood p -> xComp p ev bk h -> 1 - useFract w h <= aquaFract w h.
Proof.
  intros HG HX. rewrite (xuse p ev bk w h HG HX). unfold aquaFract. rewrite (xc_turnOn _ _ _ _ HX). pose proof (xg_hgt _ HG) as GH.
  pose proof (xaqua_ge w (Q2R (xheight (xp_off p))) (xp_on p) (xg_on _ HG) (xg_heights _ HG) 1 ltac:(lra)) as A. num_simpl. cbv zeta in *. num_simpl. lra.
Qed.
Lemma xreturn_in p : xGood p -> (0 <= xreturnOf (xp_nodes p) (xp_return p) < Z.of_nat (xp_nodes p))%Z.
Proof. intros HG. pose proof (xg_return _ HG) as GR. destruct (xg_nodes _ HG) as [-> | ->], (xp_return p); cbn; lia. Qed.
Lemma xcomp_sound p ev bk h : xGood p -> xComp p ev bk h -> soundCompressor (xp_nodes p) h.
Proof.
  intros HG HX. constructor.
  - destruct (xc_defrost _ _ _ _ HX) as (-> & ->). intros ->. split; [cbn; lia|]. apply (xc_config _ _ _ _ HX).
  - intros _. rewrite (xc_shutOff _ _ _ _ HX). destruct (xc_ports _ _ _ _ HX) as (-> & ->). split; auto. pose proof (xreturn_in p HG) as HI. split; [|exact HI]. destruct (xg_nodes _ HG) as [-> | ->]; lia.
  - intros HC. destruct HC. apply (xc_config _ _ _ _ HX).
Qed.
(** a larger tank of the same proportions loses less heat for its volume *)
Lemma area_ratio v0 v1 : 0 < v0 -> v0 <= v1 -> 0 < surfaceArea_m2 (T:=R) v1 / surfaceArea_m2 v0 <= v1 / v0.
Proof.
  intros H0 H1. pose proof (area_pos v0 H0) as P0. pose proof (area_pos v1 ltac:(lra)) as P1. split; [apply Rdiv_lt_0_compat; auto|].
  destruct (C37_one_cylinder_fact v0 H0) as (r & (HR & EV) & _ & ES). destruct (C37_one_cylinder_fact v1 ltac:(lra)) as (s & (HS & EW) & _ & ET).
  set (k := 2 * (314159 / 100000) * (1 + 475 / 100) / (32808 / 10000) / (32808 / 10000)). assert (HK : 0 < k) by (unfold k; lra).
  assert (E0 : surfaceArea_m2 v0 = k * (r * r)) by (rewrite ES; unfold k; field). assert (E1 : surfaceArea_m2 v1 = k * (s * s)) by (rewrite ET; unfold k; field).
  set (q := 314159 / 100000 * (475 / 100) * (2831685 / 100000)). assert (HQ : 0 < q) by (unfold q; lra).
  assert (F0 : v0 = q * (r * r * r)) by (rewrite <- EV; unfold q; ring). assert (F1 : v1 = q * (s * s * s)) by (rewrite <- EW; unfold q; ring). clearbody k q. clear EV EW ES ET.
  assert (HRS : r <= s). { destruct (Rle_lt_dec r s) as [L|L]; auto. exfalso. assert (s * s * s < r * r * r) by (assert (s * s < r * r) by nra; nra). assert (q * (s * s * s) < q * (r * r * r)) by (apply Rmult_lt_compat_l; auto). lra. }
  rewrite E0, E1, F0, F1. assert (HRR : 0 < r * r) by nra. apply Rmult_le_reg_r with (r * r * r); [nra|]. 
  replace (k * (s * s) / (k * (r * r)) * (r * r * r)) with (s * s * r) by (field; lra). replace (q * (s * s * s) / (q * (r * r * r)) * (r * r * r)) with (s * s * s) by (field; lra). nra.
Qed.
Lemma final_bounds p : xGood p -> 160 <= finalVol p /\ 0 <= finalUA p <= finalVol p / 20.
Proof.
  intros HG. pose proof (xg_vol _ HG) as HV. pose proof (xg_UA _ HG) as HU. pose proof (xg_size _ HG) as HS. unfold finalUA, finalVol in *. destruct (xp_size p) as [g|]; [|lra].
  specialize (HS g eq_refl). set (V := lval g * (378541 / 100000)) in *. clearbody V. set (v := lval (xp_vol p)) in *. clearbody v. set (u := lval (xp_UA p)) in *. clearbody u. split; [lra|]. destruct (area_ratio v V ltac:(lra) HS) as (A1 & A2).
  set (q := surfaceArea_m2 _ / surfaceArea_m2 _) in *. clearbody q.
  assert (A3 : q * v <= V) by (apply Rmult_le_reg_r with (/ v); [apply Rinv_0_lt_compat; lra|]; replace (q * v * / v) with q by (field; lra); exact A2).
  split; [nra|]. assert (u * q <= v / 20 * q) by (apply Rmult_le_compat_r; lra). lra.
Qed.
Lemma xlist_comp p ev hs : xlist p ev hs -> exists k h bk, nth_error hs k = Some h /\ xComp p ev bk h /\ (forall i g, nth_error hs i = Some g -> h_type g = TCompressor -> i = k).
Proof.
  intros HL. destruct HL as [h E HX|watts d t b h E HT HB HX].
  - exists 0%nat, h, None. splits; auto. intros i g HI _. destruct i as [|[|i]]; auto; discriminate HI.
  - exists 2%nat, h, (Some 1%nat). splits; auto. intros i g HI HG. destruct i as [|[|[|i]]]; cbn in HI; auto; [| |destruct i; discriminate HI]; inversion HI; subst; [rewrite (xe_type _ _ _ _ HT) in HG|rewrite (xe_type _ _ _ _ HB) in HG]; discriminate.
Qed.
Lemma xelem_sound n hs i t watts d h : xElem t watts d h -> startable hs i h -> soundSource n hs i h.
Proof.
  intros [E1 E2 E3 E4 E5 E6 E7 E8 E9 E10 E11] HS. constructor; auto.
  - rewrite E7. destruct t; [|constructor]. constructor; [|constructor]. apply gen_logic.
  - rewrite E8. constructor.
  - apply good_valid; auto.
  - rewrite E4. lra.
  - intros HT. rewrite E1 in HT. discriminate HT.
Qed.
Lemma xon_ne p ev bk h : xGood p -> xComp p ev bk h -> h_turnOn h <> [].
Proof. intros HG HX. rewrite (xc_turnOn _ _ _ _ HX). pose proof (xg_onne _ HG). destruct (xp_on p); [congruence|]. cbn [map]. discriminate. Qed.
Lemma xcomp_source p ev bk hs i h : xGood p -> xComp p ev bk h -> soundSource (xp_nodes p) hs i h.
Proof.
  intros HG HX. constructor.
  - left. eapply xon_ne; eauto.
  - rewrite (xc_turnOn _ _ _ _ HX). apply xlogics_valid. apply (xg_on _ HG).
  - rewrite (xc_shutOff _ _ _ _ HX). apply (xlogics_valid [xp_off p]). cbn [forallb]. rewrite (xg_off _ HG). reflexivity.
  - rewrite (xc_dist _ _ _ _ HX). apply good_valid. apply xshape_good; auto.
  - rewrite (xc_air _ _ _ _ HX). lra.
  - intros _. eapply xcomp_sound; eauto.
Qed.
Lemma xlist_sound p ev hs : xGood p -> xlist p ev hs -> forall i h, nth_error hs i = Some h -> soundSource (xp_nodes p) hs i h.
Proof.
  intros HG HL. destruct HL as [h E HX|watts d t b h E HT HB HX]; intros i g HI.
  - destruct i as [|[|i]]; cbn in HI; [|discriminate HI|discriminate HI]. inversion HI; subst. eapply xcomp_source; eauto.
  - destruct i as [|[|[|i]]]; cbn in HI; [| | |destruct i; discriminate HI]; inversion HI; subst.
    + eapply xelem_sound; eauto. left. rewrite (xe_turnOn _ _ _ _ HT). discriminate.
    + eapply xelem_sound; eauto. right. exists 2%nat, h. cbn [nth_error]. splits; auto; [apply (xc_links _ _ _ _ HX)|eapply xon_ne; eauto|].
      intros k q HK HQ. destruct k as [|[|k]]; cbn in HQ; [| |lia]; inversion HQ; subst; [destruct (xe_links _ _ _ _ HT) as (-> & _)|destruct (xe_links _ _ _ _ HB) as (-> & _)]; discriminate.
    + eapply xcomp_source; eauto.
Qed.
Lemma shx_hot p ev bk h : xGood p -> xComp p ev bk h -> h_shxHot h = Q2R (shxHotQ p).
Proof.
  intros HG HX. pose proof (xc_shx _ _ _ _ HX) as E. destruct (xg_hot _ HG) as (_ & ->). unfold triple in *. destruct (xp_shx p) as [[[a b] c]|]; inversion E; cbn [fst snd]; congruence.
Qed.
Lemma external_acceptable p ev junk (v : hpwh R) : xGood p -> xUnit p (xsources p ev junk) v -> acceptable (calcDerivedValues v).
Proof.
  intros HG HU. destruct (xunit_derived _ _ _ HU) as (HD & HZ). pose proof (xsources_facts p ev junk (xp_nodes p)) as HF. generalize dependent (map (deriveHS (xp_nodes p)) (xsources p ev junk)). intros hs HD HF.
  pose proof (C56_compressor_index_fact v) as XC. pose proof (C56_lowest_element_fact v) as XM. cbv zeta in XC, XM. clear HU.
  generalize dependent (calcDerivedValues v). clear v. intros d HZ HD XC XM. pose proof (xu_hs _ _ _ HD) as EH. rewrite EH in *.
  destruct (xlist_comp _ _ _ HF) as (k & h & bk & HK & HX & HO). pose proof (final_bounds p HG) as HB.
  assert (EC : w_compIx d = Z.of_nat k).
  { destruct XC as [(_ & XN)|(i & E & (g & GI & GT) & _)]; [exfalso; apply (XN k); exists h; split; auto; apply (xc_type _ _ _ _ HX)|]. rewrite E. f_equal. eapply HO; eauto. }
  constructor.
  - left. rewrite EH. destruct hs; [destruct k; discriminate HK|discriminate].
  - rewrite EH, (xu_Ts _ _ _ HD), repeat_length. eapply xlist_sound; eauto.
  - intros _. unfold getSizingFractions, hasCompressor, compressor. rewrite EC, EH. replace (0 <=? Z.of_nat k)%Z with true by (symmetry; apply Z.leb_le; lia). cbn [negb]. destruct (xu_soc _ _ _ HD) as (-> & _).
    replace (Z.of_nat k <? 0)%Z with false by (symmetry; apply Z.ltb_ge; lia). rewrite Nat2Z.id, HK. cbn [obind]. pose proof (xsizing p ev bk d h HG HX) as HS. eexists _, _. split; [reflexivity|].
    destruct (nltb _ _); unfold TOL_MINVALUE, dec; num_simpl; lra.
  - destruct (xu_sp _ _ _ HD) as (ES & EX). unfold isNewSetpointPossible, tempToC. cbn [obind]. unfold setpointPossible. rewrite EX, ES, EH. unfold hasCompressor. rewrite EC, Nat2Z.id, HK.
    replace (0 <=? Z.of_nat k)%Z with true by (symmetry; apply Z.leb_le; lia). cbn [obind]. rewrite (shx_hot _ _ _ _ HG HX), (xc_maxSet _ _ _ _ HX). destruct (xg_sp _ HG) as (S1 & S2). unfold tolT, dec. num_simpl.
    generalize dependent (lval (T:=R) (xp_setpoint p)). intros sp _ S1 S2. generalize dependent (lval (T:=R) (xp_maxSet p)). intros ms S1.
    rewrite (proj2 (Rltb_false (100 + _) sp)) by lra. rewrite (proj2 (Rltb_false (ms - _ + _) sp)) by lra. cbn [negb andb].
    destruct (xp_setFixed p); [match goal with |- context [Ok (?b, sp)] => replace b with true by (symmetry; rcase; auto) end; cbn [obind tempFromC]; eauto|]. rewrite andb_false_r.
    destruct (0 <=? w_lowIx d)%Z; cbn [obind tempFromC]; eauto.
  - rewrite (xu_UA _ _ _ HD). lra.
  - destruct (xu_hx _ _ _ HD) as (_ & ->). lra.
Qed.
Lemma external_ok p ev junk (w : hpwh R) : xGood p -> exists v, xUnit p (xsources p ev junk) v /\ initExternal p ev junk w = (Ok tt, calcDerivedValues v).
Proof.
  intros HG. destruct (external_run p ev junk w (xg_sized _ HG)) as (v & HU & E). exists v. split; auto. rewrite E. rewrite finish_run by (eapply external_acceptable; eauto).
  destruct (xunit_derived _ _ _ HU) as (HD & _). rewrite (xu_hs _ _ _ HD).
  assert (HB : existsb h_on (map (deriveHS (xp_nodes p)) (xsources p ev junk)) = false).
  { pose proof (xsources_facts p ev junk (xp_nodes p)) as HF. generalize dependent (map (deriveHS (xp_nodes p)) (xsources p ev junk)). intros hs _ HF. destruct HF as [h _ HX|watts d t b h _ HT HB HX]; cbn [existsb];
    rewrite ?(xc_on _ _ _ _ HX), ?(xe_on _ _ _ _ HT), ?(xe_on _ _ _ _ HB); reflexivity. }
  rewrite HB. pose proof (xu_heating _ _ _ HD) as HH. clear HD. generalize dependent (calcDerivedValues v). intros d HH. destruct d. cbn in HH. rewrite HH. reflexivity.
Qed.
Lemma C105_accepts_fact : forall m ev junk (w : hpwh R), exists w', initExternal (xpresetOf m) ev junk w = (Ok tt, w').
Proof. intros m ev junk w. destruct (external_ok _ ev junk w (chk_good _ (all_xchecked m))) as (v & _ & E). eauto. Qed.
Lemma preset_unit m ev junk (w w' : hpwh R) : initExternal (xpresetOf m) ev junk w = (Ok tt, w') -> let p := xpresetOf m in xGood p /\ xUnit p (map (deriveHS (xp_nodes p)) (xsources p ev junk)) w' /\ w_tank w' = calcSizeConstants (w_tank w') /\ acceptable w' /\
  exists k h bk, nth_error (w_hs w') k = Some h /\ xComp p ev bk h /\ (forall i g, nth_error (w_hs w') i = Some g -> h_type g = TCompressor -> i = k) /\ w_compIx w' = Z.of_nat k.
Proof.
  intros E. cbv zeta. pose proof (chk_good _ (all_xchecked m)) as HG. generalize dependent (xpresetOf m). intros p E HG. destruct (external_ok _ ev junk w HG) as (v & HU & E2). rewrite E2 in E. assert (EW : w' = calcDerivedValues v) by congruence. clear E E2.
  destruct (xunit_derived _ _ _ HU) as (HD & HS). pose proof (external_acceptable _ _ _ _ HG HU) as AC. pose proof (C56_compressor_index_fact v) as XC. cbv zeta in XC. rewrite <- EW in *. clear EW HU. split; auto. split; auto. split; auto. split; auto.
  pose proof (xsources_facts p ev junk (xp_nodes p)) as HF. rewrite <- (xu_hs _ _ _ HD) in HF. destruct (xlist_comp _ _ _ HF) as (k & h & bk & HK & HX & HO). exists k, h, bk. split; auto. split; auto. split; auto.
  destruct XC as [(_ & XN)|(i & E & (g & GI & GT) & _)]; [exfalso; apply (XN k); exists h; split; auto; apply (xc_type _ _ _ _ HX)|]. rewrite E. f_equal. eapply HO; eauto.
Qed.
Lemma C105_result_fact : forall m ev junk (w w' : hpwh R), initExternal (xpresetOf m) ev junk w = (Ok tt, w') ->
  (length (t_Ts (w_tank w')) = 24%nat \/ length (t_Ts (w_tank w')) = 96%nat) /\ (forall x, In x (t_Ts (w_tank w')) -> x = w_setpoint w') /\ 50 <= w_setpoint w' <= 65 /\
  (exists mx, isNewSetpointPossible (w_setpoint w') U_C w' = Ok (true, mx)) /\
  160 <= t_volume (w_tank w') /\ t_nodeVol (w_tank w') * INR (length (t_Ts (w_tank w'))) = t_volume (w_tank w') /\ 0 <= t_UA (w_tank w') <= t_volume (w_tank w') / 20 /\
  w_heating w' = false /\ w_doDepress w' = false /\ (forall h, In h (w_hs w') -> h_on h = false) /\
  exists k h, nth_error (w_hs w') k = Some h /\ w_compIx w' = Z.of_nat k /\ (forall i g, nth_error (w_hs w') i = Some g -> h_type g = TCompressor -> i = k) /\
    h_type h = TCompressor /\ h_config h = External /\ h_extOut h = 0%Z /\ length (h_shutOff h) = 1%nat /\ h_turnOn h <> [] /\
    (if h_multipass h then length (t_Ts (w_tank w')) = 24%nat /\ h_extIn h = 7%Z else h_extIn h = (Z.of_nat (length (t_Ts (w_tank w'))) - 1)%Z).
Proof.
  intros m ev junk w w' E. destruct (preset_unit m ev junk w w' E) as (HG & HD & HS & AC & k & h & bk & HK & HX & HO & HC). cbv zeta in *. generalize dependent (xpresetOf m). intros p E HG HD HX.
  pose proof (xsources_facts p ev junk (xp_nodes p)) as HF. generalize dependent (map (deriveHS (xp_nodes p)) (xsources p ev junk)). intros hs HD HF.
  assert (HN : length (t_Ts (w_tank w')) = xp_nodes p) by (rewrite (xu_Ts _ _ _ HD); apply repeat_length). destruct (final_bounds p HG) as (B1 & B2). destruct (xu_sp _ _ _ HD) as (ES & _).
  destruct (C37_size_constants_fact (w_tank w')) as (_ & _ & _ & _ & S1 & _); [rewrite (xu_vol _ _ _ HD); lra|rewrite (xu_Ts _ _ _ HD); destruct (xg_nodes _ HG) as [-> | ->]; discriminate|]. rewrite <- HS in S1.
  assert (HNR : 0 < INR (xp_nodes p)) by (destruct (xg_nodes _ HG) as [-> | ->]; apply lt_0_INR; lia).
  split; [rewrite HN; apply (xg_nodes _ HG)|]. split; [intros x HI; rewrite (xu_Ts _ _ _ HD) in HI; apply repeat_spec in HI; rewrite ES; exact HI|]. split; [rewrite ES; apply (xg_sp _ HG)|].
  split; [apply (ac_setpoint _ AC)|]. split; [rewrite (xu_vol _ _ _ HD); exact B1|]. split; [rewrite Rmult_comm; exact S1|].
  split; [rewrite (xu_vol _ _ _ HD), (xu_UA _ _ _ HD); exact B2|]. split; [apply HD|]. split; [apply (xu_dep _ _ _ HD)|].
  split. { intros g HI. rewrite (xu_hs _ _ _ HD) in HI. destruct HF as [h' _ HX'|watts d t b h' _ HT HB HX']; cbn in HI; destruct HI as [<-|HI]; try contradiction; try destruct HI as [<-|HI]; try destruct HI as [<-|HI]; try contradiction; try apply (xc_on _ _ _ _ HX'); try apply (xe_on _ _ _ _ HT); apply (xe_on _ _ _ _ HB). }
  exists k, h. split; auto. split; auto. split; auto. split; [apply HX|]. split; [apply HX|]. destruct (xc_ports _ _ _ _ HX) as (P1 & P2). split; auto. split; [rewrite (xc_shutOff _ _ _ _ HX); reflexivity|]. split; [eapply xon_ne; eauto|].
  rewrite (xc_multi _ _ _ _ HX), P2, HN. pose proof (xg_return _ HG) as GR. destruct (xp_multi p); [destruct GR as (-> & ->); split; reflexivity|rewrite GR; reflexivity].
Qed.
Lemma C105_size_fact : forall m ev junk (w w' : hpwh R) g, initExternal (xpresetOf m) ev junk w = (Ok tt, w') -> xp_size (xpresetOf m) = Some g ->
  t_volume (w_tank w') = lval g * (378541 / 100000) /\ t_UA (w_tank w') / surfaceArea_m2 (t_volume (w_tank w')) = lval (xp_UA (xpresetOf m)) / surfaceArea_m2 (lval (xp_vol (xpresetOf m))).
Proof.
  intros m ev junk w w' g E EG. destruct (preset_unit m ev junk w w' E) as (HG & HD & _). cbv zeta in *. generalize dependent (xpresetOf m). intros p E EG HG HD. rewrite (xu_vol _ _ _ HD), (xu_UA _ _ _ HD).
  destruct (final_bounds p HG) as (B1 & _). pose proof (area_pos (finalVol p) ltac:(lra)) as P1. assert (P2 : 0 < surfaceArea_m2 (lval (T:=R) (xp_vol p))) by (apply area_pos; pose proof (xg_vol _ HG); lra). unfold finalUA. rewrite EG. split; [unfold finalVol; rewrite EG; reflexivity|]. field. lra.
Qed.
(** the presets whose compressor starts high in the tank *)
Definition highStart (m : xmodel) : Prop := m = X_Sanco83 \/ m = X_Sanco119 \/ m = X_SancoGS3_45HPA_US_SP.
Definition highB (m : xmodel) : bool := match m with X_Sanco83 | X_Sanco119 | X_SancoGS3_45HPA_US_SP => true | _ => false end.
Lemma high_b m : highStart m <-> highB m = true.
Proof. unfold highStart. split; [intros [-> |[-> | ->]]; reflexivity|]. destruct m; cbn [highB]; intros HH; try discriminate HH; auto. Qed.
Lemma aqua_ref (w : hpwh R) ls : forallb xlgood ls = true -> forall a q, a = Q2R q ->
  fold_left (fun a l => let x := l_nodeWeightAvgFract w l in if nltb x a then x else a) (map xlogicOf ls) a = Q2R (fold_left (fun a l => qmin (xheight l) a) ls q).
Proof.
  induction ls as [|l ls IH]; cbn [forallb map fold_left]; intros HG a q EA; auto. apply andb_prop in HG. destruct HG as (G1 & G2). apply IH; auto. destruct (xlogic_good l G1) as (_ & ->). cbv zeta. num_simpl.
  unfold qmin. destruct (Qle_bool (xheight l) q) eqn:EQ.
  - apply qle_R in EQ. destruct (Rltb _ _) eqn:EL; auto. apply Rltb_false in EL. lra.
  - assert (HL : (q <= xheight l)%Q) by (destruct (Qlt_le_dec (xheight l) q) as [L|L]; auto; apply Qlt_le_weak, Qle_bool_iff in L; congruence). apply Qle_Rle in HL. rewrite (proj2 (Rltb_false _ _)); auto. lra.
Qed.
Definition sizeOK (m : xmodel) : bool :=
  Qeq_bool (xref (xpresetOf m)) (if highB m then Qmake 2 3 else Qmake 1 3) && Qeq_bool (xheight (xp_off (xpresetOf m))) (if xp_multi (xpresetOf m) then Qmake 1 3 else Qmake 1 12) && negb (xp_multi (xpresetOf m) && highB m).
Lemma all_sizes m : sizeOK m = true.
Proof. destruct m; vm_compute; reflexivity. Qed.
Lemma sizing_value (a r : R) : r = a \/ 1 / 10000 <= a - r ->
  (if nltb (nabs (nsub a (nsub (nofZ 1) (1 - r)))) (TOL_MINVALUE (T:=R)) then nadd (nsub (nofZ 1) a) TOL_MINVALUE else 1 - r) = (if Rlt_dec r a then 1 - r else 1 - a + 1 / 10000).
Proof.
  intros HC. unfold nabs, TOL_MINVALUE, dec. num_simpl. destruct (Rlt_dec r a) as [L|L].
  - destruct HC as [HC|HC]; [lra|]. destruct (Rltb (a - (1 - (1 - r))) 0) eqn:E1; bcase; [lra|]. rewrite (proj2 (Rltb_false _ _)) by lra. reflexivity.
  - assert (r = a) by lra. subst r. destruct (Rltb (a - (1 - (1 - a))) 0) eqn:E1; bcase; [lra|]. rewrite (proj2 (Rltb_true _ _)) by lra. lra.
Qed.
Lemma C105_sizing_fact : forall m ev junk (w w' : hpwh R), initExternal (xpresetOf m) ev junk w = (Ok tt, w') ->
  exists h, In h (w_hs w') /\ h_type h = TCompressor /\ (h_multipass h = true -> ~ highStart m) /\
  getSizingFractions w' = (if h_multipass h then Ok (1 / 3, 2 / 3 + 1 / 10000) else if highB m then Ok (2 / 3, 11 / 12) else Ok (1 / 3, 11 / 12)).
Proof.
  intros m ev junk w w' E. destruct (preset_unit m ev junk w w' E) as (HG & HD & HS & AC & k & h & bk & HK & HX & HO & HC). cbv zeta in *. clear E.
  exists h. split; [eapply nth_error_In; eauto|]. split; [apply HX|]. pose proof (all_sizes m) as HZ. unfold sizeOK in HZ. apply andb_prop in HZ. destruct HZ as (HZ & Z3). apply andb_prop in HZ. destruct HZ as (Z1 & Z2). apply Qeq_bool_eq, Qeq_eqR in Z1. apply Qeq_bool_eq, Qeq_eqR in Z2.
  rewrite (xc_multi _ _ _ _ HX). split. { intros EM HH. apply high_b in HH. rewrite EM, HH in Z3. discriminate Z3. }
  unfold getSizingFractions, hasCompressor, compressor. rewrite HC. replace (0 <=? Z.of_nat k)%Z with true by (symmetry; apply Z.leb_le; lia). cbn [negb]. destruct (xu_soc _ _ _ HD) as (-> & _).
  replace (Z.of_nat k <? 0)%Z with false by (symmetry; apply Z.ltb_ge; lia). rewrite Nat2Z.id, HK. cbn [obind]. rewrite (xuse _ _ _ w' h HG HX).
  assert (EA : aquaFract w' h = Q2R (xref (xpresetOf m))). { unfold aquaFract. rewrite (xc_turnOn _ _ _ _ HX). apply aqua_ref; [apply (xg_on _ HG)|]. num_simpl. unfold Q2R. cbn. lra. }
  rewrite EA, Z1, Z2. clear EA Z1 Z2 HD HS AC HK HX HO HC HG. destruct (xp_multi (xpresetOf m)), (highB m); cbn [andb negb] in Z3; try discriminate Z3; (rewrite sizing_value; [|unfold Q2R; cbn; lra]); destruct (Rlt_dec _ _) as [L|L]; do 2 f_equal; revert L; unfold Q2R; cbn; lra.
Qed.
Lemma C105_example_fact : forall ev junk (w : hpwh R), exists w1 w2 w3,
  initExternal (xpresetOf X_Sanco83) ev junk w = (Ok tt, w1) /\ length (t_Ts (w_tank w1)) = 96%nat /\ w_setpoint w1 = 65 /\ getSizingFractions w1 = Ok (2 / 3, 11 / 12) /\
  initExternal (xpresetOf X_ColmacCxV_5_MP) ev junk w = (Ok tt, w2) /\ length (t_Ts (w_tank w2)) = 24%nat /\ getSizingFractions w2 = Ok (1 / 3, 2 / 3 + 1 / 10000) /\
  initExternal (xpresetOf X_TamScalable_SP) ev junk w = (Ok tt, w3) /\ map h_type (w_hs w3) = [TResistance; TResistance; TCompressor] /\ getSizingFractions w3 = Ok (1 / 3, 11 / 12).
Proof.
  intros ev junk w. destruct (C105_accepts_fact X_Sanco83 ev junk w) as (w1 & E1). destruct (C105_accepts_fact X_ColmacCxV_5_MP ev junk w) as (w2 & E2). destruct (C105_accepts_fact X_TamScalable_SP ev junk w) as (w3 & E3). exists w1, w2, w3.
  assert (HM : forall m v, initExternal (xpresetOf m) ev junk w = (Ok tt, v) -> length (t_Ts (w_tank v)) = xp_nodes (xpresetOf m) /\ w_setpoint v = lval (xp_setpoint (xpresetOf m)) /\ xlist (xpresetOf m) ev (w_hs v) /\
    getSizingFractions v = (if xp_multi (xpresetOf m) then Ok (1 / 3, 2 / 3 + 1 / 10000) else if highB m then Ok (2 / 3, 11 / 12) else Ok (1 / 3, 11 / 12))).
  { intros m v EV. destruct (preset_unit m ev junk w v EV) as (HG & HD & HS & AC & k & h & bk & HK & HX & HO & HC). cbv zeta in *. split; [rewrite (xu_Ts _ _ _ HD); apply repeat_length|]. split; [apply (xu_sp _ _ _ HD)|]. split; [rewrite (xu_hs _ _ _ HD); apply xsources_facts|].
    destruct (C105_sizing_fact m ev junk w v EV) as (g & GI & GT & _ & ->). apply In_nth_error in GI. destruct GI as (i & GI). rewrite (HO _ _ GI GT) in GI. rewrite HK in GI. inversion GI; subst. rewrite (xc_multi _ _ _ _ HX). reflexivity. }
  destruct (HM _ _ E1) as (A1 & A2 & _ & A4). destruct (HM _ _ E2) as (B1 & _ & _ & B4). destruct (HM _ _ E3) as (_ & _ & D3 & D4). clear HM.
  split; [exact E1|]. split; [exact A1|]. split; [rewrite A2, <- qv_ok by (vm_compute; reflexivity); replace (qv (xp_setpoint (xpresetOf X_Sanco83))) with 65%Q by (vm_compute; reflexivity); unfold Q2R; cbn; lra|]. split; [exact A4|]. split; [exact E2|]. split; [exact B1|]. split; [exact B4|]. split; [exact E3|]. split; [|exact D4].
  inversion D3 as [h HE|watts d t b h HE HT HB HX]; [discriminate HE|]. cbn [map]. rewrite (xe_type _ _ _ _ HT), (xe_type _ _ _ _ HB), (xc_type _ _ _ _ HX). reflexivity.
Qed.
(** ** Runs *)
Definition lift5 (p : xpreset) : bool := match xp_resDefrost p with Some (_, l, _) => qok l && Qle_bool 0 (qv l) && Qle_bool (qv l) 5 | None => true end.
Definition cold10 (p : xpreset) : bool := match xp_shx p with Some (c, _, _) => qok c && Qle_bool 0 (qv c) && Qle_bool (qv c) 10 | None => true end.
Definition flowOK (p : xpreset) : bool := negb (xp_multi p) || match xp_flow p with Some x => qok x && qlt 0 (qv x) && Qle_bool (qv x) 100 | None => false end.
Definition xrunChk (p : xpreset) : bool := lift5 p && cold10 p && flowOK p && Qle_bool (qv (xp_setpoint p)) (qv (xp_maxSet p)).
Lemma all_xrun (m : xmodel) : xrunChk (xpresetOf m) = true.
Proof. destruct m; vm_compute; reflexivity. Qed.
Definition liftMax (p : xpreset) : R := match xp_resDefrost p with Some _ => 25 / 9 | None => 0 end.
Definition coldMax (p : xpreset) : R := match xp_shx p with Some _ => 10 | None => 0 end.
Lemma xperf p ev bk h a0 a1 C (u : hpwh R) air cond : xComp p ev bk h -> xrunChk p = true -> deliversHeat ev a0 a1 C -> a0 <= air -> air + liftMax p <= a1 -> (forall y, 0 <= y <= coldMax p -> C (cond + y)) ->
  exists q, getPerformance u h air cond = Ok q /\ 0 < p_in q /\ 0 < p_out q.
Proof.
  intros HX HC HD H0 H1 HY. unfold xrunChk in HC. apply andb_prop in HC. destruct HC as (HC & _). apply andb_prop in HC. destruct HC as (HC & _). apply andb_prop in HC. destruct HC as (HL & HK).
  assert (EL : 0 <= h_rdLift h /\ 5 / 9 * h_rdLift h <= liftMax p). { pose proof (xc_rd _ _ _ _ HX) as E. unfold lift5, liftMax, triple in *. destruct (xp_resDefrost p) as [[[a b] c]|]; inversion E; [|lra]. apply andb_prop in HL. destruct HL as (HL & L2). apply andb_prop in HL. destruct HL as (L0 & L1). apply qle_R in L1. apply qle_R in L2. rewrite qv_ok in * by auto. rewrite Q2R_0 in L1. replace (Q2R 5) with 5 in L2 by (unfold Q2R; cbn; lra). lra. }
  assert (EC : 0 <= h_shxCold h <= coldMax p). { pose proof (xc_shx _ _ _ _ HX) as E. unfold cold10, coldMax, triple in *. destruct (xp_shx p) as [[[a b] c]|]; inversion E; [|lra]. apply andb_prop in HK. destruct HK as (HK & L2). apply andb_prop in HK. destruct HK as (L0 & L1). apply qle_R in L1. apply qle_R in L2. rewrite qv_ok in * by auto. rewrite Q2R_0 in L1. replace (Q2R 10) with 10 in L2 by (unfold Q2R; cbn; lra). lra. }
  unfold getPerformance. rewrite (xc_eval _ _ _ _ HX), (xc_air _ _ _ _ HX). destruct (xc_scale _ _ _ _ HX) as (-> & ->). destruct (xc_defrost _ _ _ _ HX) as (-> & ->).
  set (rd := (_ && _)%bool). assert (ER : rd = true -> 0 < h_rdPwr h) by (unfold rd; intros E; apply andb_prop in E; destruct E as (E & _); num_simpl; apply Rltb_true in E; exact E). clearbody rd.
  set (ext := if rd then nadd air (dF_TO_dC (h_rdLift h)) else air). assert (HE : a0 <= ext <= a1) by (unfold ext, dF_TO_dC, FperC, dec; num_simpl; clear HY; destruct rd; lra). clearbody ext.
  num_simpl. destruct (HD (w_setpoint u) ext (cond + h_shxCold h) HE (HY _ EC)) as (P1 & P2). generalize dependent (ev (w_setpoint u) ext (cond + h_shxCold h)). intros q P1 P2. unfold nneqb. num_simpl. rewrite (proj2 (Reqb'_true 1 1)) by lra. cbn [negb].
  assert (HF : exists cop, (if xp_defrost p then defrostDerate (if xp_defrost p then [(17, 1); (35, 8865 / 10000); (47, 1)] else []) (p_cop q * 1) (C_TO_F ext) else Ok (p_cop q * 1)) = Ok cop /\ 0 < cop).
  { destruct (xp_defrost p); [|exists (p_cop q * 1); split; [reflexivity|lra]].
    destruct (C63_range_fact [(17, 1); (35, 8865 / 10000); (47, 1)] (C_TO_F ext) (8865 / 10000) 1) as (f & HF & HB); [discriminate|repeat constructor; cbn; lra|lra|repeat constructor; cbn; lra|]. exists (p_cop q * 1 * f). split; [apply HF|]. nra. }
  destruct HF as (cop & -> & HP). cbn [obind]. eexists. split; [reflexivity|]. cbn [p_in p_out]. split; [|nra]. unfold KW_TO_W. num_simpl. destruct rd; [specialize (ER eq_refl)|]; nra.
Qed.
Lemma x_stopsHot p ev bk h : xGood p -> xComp p ev bk h -> Forall stopsHot (h_shutOff h).
Proof.
  intros HG HX. rewrite (xc_shutOff _ _ _ _ HX). constructor; [|constructor]. destruct (xlogic_good _ (xg_off _ HG)) as ((s & d & x & ab & cm & hts & sb & E & _ & G) & _). rewrite E. cbn [stopsHot]. split; auto.
  destruct (xg_greater _ HG) as (s' & n' & x' & ab' & hts' & E'). rewrite E' in E. cbn [xlogicOf] in E. congruence.
Qed.
Lemma xlogics_ready have ls : forallb xlgood ls = true -> Forall (logicReady have) (map (xlogicOf (T:=R)) ls).
Proof.
  induction ls as [|l ls IH]; cbn [forallb map]; intros HG; [constructor|]. apply andb_prop in HG. destruct HG as (G1 & G2). constructor; auto.
  destruct (xlogic_good l G1) as ((s & d & x & ab & cm & hts & sb & E & _ & G) & _). rewrite E. exact G.
Qed.
Lemma xsp_max' p : xGood p -> lval (T:=R) (xp_setpoint p) <= lval (xp_maxSet p).
Proof. intros HG. destruct (xg_sp _ HG) as (A & _). destruct (xg_hot _ HG) as (B & _). lra. Qed.
Lemma xflow p ev bk h : xComp p ev bk h -> xrunChk p = true -> xp_multi p = true -> 0 < h_mpFlow h <= 7.
Proof.
  intros HX HC HM. unfold xrunChk in HC. apply andb_prop in HC. destruct HC as (HC & _). apply andb_prop in HC. destruct HC as (_ & HF). unfold flowOK in HF. rewrite HM in HF. cbn [negb orb] in HF. pose proof (xc_flow _ _ _ _ HX) as EF. destruct (xp_flow p) as [x|]; [|discriminate].
  rewrite (EF x eq_refl). apply andb_prop in HF. destruct HF as (HF & F2). apply andb_prop in HF. destruct HF as (F0 & F1). apply qlt_R in F1. apply qle_R in F2. rewrite qv_ok in * by auto. rewrite Q2R_0 in F1. replace (Q2R 100) with 100 in F2 by (unfold Q2R; cbn; lra).
  unfold GPM_TO_LPS, L_per_gal, sec_per_min, dec. num_simpl. lra.
Qed.
Lemma xcomp_ready p ev bk h n air (D : R -> Prop) : xGood p -> xComp p ev bk h -> (forall b, bk = Some b -> (b < n)%nat) -> h_mlAir h < air -> (forall (u : hpwh R) c, D c -> exists q, getPerformance u h air c = Ok q /\ 0 < p_out q) ->
  srcReadyX True n false (lval (xp_setpoint p)) air D h.
Proof.
  intros HG HX HB HA HP. destruct (xc_links _ _ _ _ HX) as (L1 & L2 & L3). constructor; auto.
  - rewrite L1. exact HB.
  - rewrite L2. discriminate.
  - rewrite L3. discriminate.
  - rewrite (xc_turnOn _ _ _ _ HX). apply xlogics_ready. apply (xg_on _ HG).
  - rewrite (xc_shutOff _ _ _ _ HX). apply (xlogics_ready false [xp_off p]). cbn [forallb]. rewrite (xg_off _ HG). reflexivity.
  - rewrite (xc_standby _ _ _ _ HX). intros l. destruct (xg_standby _ HG) as [-> |(s & x & ab & cm & hts & ->)]; cbn [option_map]; [discriminate|]. intros E. inversion E. cbn [xlogicOf logicReady nodesDist Z.eqb d_type]. discriminate.
  - rewrite (xc_dist _ _ _ _ HX). apply xshape_good; auto.
  - rewrite (xc_type _ _ _ _ HX). discriminate.
  - rewrite (xc_config _ _ _ _ HX). discriminate.
  - intros _. rewrite (xc_maxSet _ _ _ _ HX). apply xsp_max'; auto.
Qed.
Lemma xelem_ready t watts d h n sp air (D : R -> Prop) : xElem t watts d h -> (2 < n)%nat -> 0 < lval (T:=R) watts -> srcReadyX True n false sp air D h.
Proof.
  intros [E1 E2 E3 E4 E5 E6 E7 E8 E9 (L1 & L2 & L3) E11] HN HW. constructor; rewrite ?E1, ?E2, ?E5, ?E7, ?E8, ?E9, ?L1, ?L2, ?L3; try discriminate; auto.
  - destruct t; intros b E; inversion E; lia.
  - destruct t; intros b E; inversion E; lia.
  - destruct t; intros b E; inversion E; lia.
  - destruct t; [|constructor]. constructor; [|constructor]. destruct (gen_logic (lval (T:=R) d)) as (_ & _). destruct (range_logic (2 / 3) 1 ltac:(lra) ltac:(lra)) as (_ & G). unfold topThird, rangeLogic. cbn [logicReady]. num_simpl. exact G.
  - intros _. lra.
Qed.
Lemma xlist_ready p ev hs air (D : R -> Prop) : xGood p -> xlist p ev hs -> (forall h, In h hs -> h_type h = TCompressor -> h_mlAir h < air) ->
  (forall h, In h hs -> h_type h = TCompressor -> forall (u : hpwh R) c, D c -> exists q, getPerformance u h air c = Ok q /\ 0 < p_out q) ->
  Forall (srcReadyX True (length hs) false (lval (xp_setpoint p)) air D) hs.
Proof.
  intros HG HL HA HP. destruct HL as [h E HX|watts d t b h E HT HB HX]; cbn [length].
  - constructor; [|constructor]. eapply xcomp_ready; eauto; [discriminate| |]; [apply HA|apply HP]; try (left; auto; fail); apply HX.
  - pose proof (xg_elems _ HG _ _ E) as HW. constructor; [|constructor; [|constructor; [|constructor]]]; [eapply xelem_ready; eauto|eapply xelem_ready; eauto|eapply xcomp_ready; eauto; [intros k EK; inversion EK; lia| |]; [apply HA|apply HP]; try (cbn; auto; fail); apply HX].
Qed.
Lemma xelem_OK t watts d h n air (D : R -> Prop) : xElem t watts d h -> 0 < lval (T:=R) watts -> INR n <= 10000 -> srcOK n air D h.
Proof. intros [E1 E2 E3 E4 E5 E6 E7 E8 E9 _ E11] HW HN. constructor; rewrite ?E1, ?E2, ?E5; try discriminate; auto; intros; lra. Qed.
Lemma xcomp_OK p ev bk h air (D : R -> Prop) : xGood p -> xrunChk p = true -> xComp p ev bk h -> (forall (u : hpwh R) c, D c -> exists q, getPerformance u h air c = Ok q /\ 0 < p_out q) -> srcOK (xp_nodes p) air D h.
Proof.
  intros HG HC HX HP. constructor.
  - rewrite (xc_type _ _ _ _ HX). discriminate.
  - intros _ u c q HD E. destruct (HP u c HD) as (q' & E' & P). rewrite E' in E. inversion E; subst. lra.
  - intros _. rewrite (xc_dist _ _ _ _ HX). apply xshape_good; auto.
  - rewrite (xc_config _ _ _ _ HX). discriminate.
  - intros _. destruct (xc_ports _ _ _ _ HX) as (-> & ->). apply xreturn_in; auto.
  - intros _ EM. rewrite (xc_multi _ _ _ _ HX) in EM. apply (xflow _ _ _ _ HX HC EM).
  - intros _ _ u f E. eapply stopsHot_fract; [|exact E]. eapply x_stopsHot; eauto.
Qed.
Lemma xlist_OK p ev hs air (D : R -> Prop) : xGood p -> xrunChk p = true -> xlist p ev hs -> (forall h, In h hs -> h_type h = TCompressor -> forall (u : hpwh R) c, D c -> exists q, getPerformance u h air c = Ok q /\ 0 < p_out q) -> Forall (srcOK (xp_nodes p) air D) hs.
Proof.
  intros HG HC HL HP. assert (HN : INR (xp_nodes p) <= 10000). { apply Rle_trans with (INR 96); [apply le_INR; destruct (xg_nodes _ HG) as [-> | ->]; lia|cbn; lra]. }
  destruct HL as [h E HX|watts d t b h E HT HB HX].
  - constructor; [|constructor]. eapply xcomp_OK; eauto. apply HP; [left; auto|apply HX].
  - pose proof (xg_elems _ HG _ _ E) as HW. constructor; [|constructor; [|constructor; [|constructor]]]; [eapply xelem_OK; eauto|eapply xelem_OK; eauto|eapply xcomp_OK; eauto; apply HP; [cbn; auto|apply HX]].
Qed.
Record xMade (p : xpreset) (ev : R -> R -> R -> perf R) (w : hpwh R) : Prop := {
  xm_good : xGood p; xm_unit : xUnit p (w_hs w) w; xm_size : w_tank w = calcSizeConstants (w_tank w); xm_list : xlist p ev (w_hs w);
  xm_ix : (w_compIx w < Z.of_nat (length (w_hs w)))%Z /\ (w_lowIx w < Z.of_nat (length (w_hs w)))%Z /\ (w_vipIx w < Z.of_nat (length (w_hs w)))%Z
}.
Lemma preset_made m ev junk (w w' : hpwh R) : initExternal (xpresetOf m) ev junk w = (Ok tt, w') -> xMade (xpresetOf m) ev w'.
Proof.
  intros E. pose proof (chk_good _ (all_xchecked m)) as HG. generalize dependent (xpresetOf m). intros p E HG. destruct (external_ok _ ev junk w HG) as (v & HU & E2). rewrite E2 in E. assert (EW : w' = calcDerivedValues v) by congruence. clear E E2.
  destruct (xunit_derived _ _ _ HU) as (HD & HS). pose proof (C56_compressor_index_fact v) as XC. pose proof (C56_lowest_element_fact v) as XL. pose proof (C56_vip_element_fact v) as XV. cbv zeta in XC, XL, XV. rewrite <- EW in *. clear EW HU v.
  pose proof (xsources_facts p ev junk (xp_nodes p)) as HF. rewrite <- (xu_hs _ _ _ HD) in HF.
  assert (LT : forall i h, nth_error (w_hs w') i = Some h -> (i < length (w_hs w'))%nat) by (intros i h HI; apply nth_error_Some; congruence).
  constructor; auto.
  - rewrite (xu_hs _ _ _ HD). exact HD.
  - split; [|split].
    + destruct XC as [[-> _]|(i & -> & (h & HI & _) & _)]; [|apply LT in HI]; lia.
    + destruct XL as [[-> _]|(i & h & -> & (HI & _) & _)]; [|apply LT in HI]; lia.
    + destruct XV as [[-> _]|(i & h & -> & (HI & _) & _)]; [|apply LT in HI]; lia.
Qed.
Lemma made_nodes p ev w : xMade p ev w -> length (t_Ts (w_tank w)) = xp_nodes p /\ (24 <= xp_nodes p <= 96)%nat /\ 24 <= INR (xp_nodes p) <= 96 /\ t_nodeVol (w_tank w) = t_volume (w_tank w) / INR (xp_nodes p) /\ 160 <= t_volume (w_tank w).
Proof.
  intros [HG HU HS HL HI]. assert (HN : length (t_Ts (w_tank w)) = xp_nodes p) by (rewrite (xu_Ts _ _ _ HU); apply repeat_length). destruct (final_bounds p HG) as (B1 & _). rewrite <- (xu_vol _ _ _ HU) in B1.
  assert (HNN : (24 <= xp_nodes p <= 96)%nat) by (destruct (xg_nodes _ HG) as [-> | ->]; lia). assert (HNR : 24 <= INR (xp_nodes p) <= 96) by (destruct (xg_nodes _ HG) as [-> | ->]; cbn; lra).
  destruct (C37_size_constants_fact (w_tank w)) as (_ & _ & _ & _ & S1 & _); [lra|rewrite (xu_Ts _ _ _ HU); destruct (xg_nodes _ HG) as [-> | ->]; discriminate|]. rewrite <- HS, HN in S1.
  split; auto. split; auto. split; auto. split; auto. rewrite <- S1. field. lra.
Qed.
Lemma made_ok p ev w air (D : R -> Prop) : xMade p ev w -> xrunChk p = true -> (forall h, In h (w_hs w) -> h_type h = TCompressor -> forall (u : hpwh R) c, D c -> exists q, getPerformance u h air c = Ok q /\ 0 < p_out q) -> unitOK air D w.
Proof.
  intros HM HC HP. destruct (made_nodes _ _ _ HM) as (HN & H1 & H2 & H3 & H4). destruct HM as [HG HU HS HL HI].
  destruct (C37_size_constants_fact (w_tank w)) as (_ & _ & _ & _ & _ & _ & S7); [lra|rewrite (xu_Ts _ _ _ HU); destruct (xg_nodes _ HG) as [-> | ->]; discriminate|]. rewrite <- HS in S7.
  constructor.
  - constructor; rewrite ?HN; auto; try lra; lia.
  - unfold ports_ok. rewrite HN. destruct (xu_inlet _ _ _ HU) as (-> & ->). lia.
  - apply HU.
  - rewrite HN. eapply xlist_OK; eauto.
  - destruct (xu_step _ _ _ HU) as (-> & _). lra.
Qed.
Lemma made_ready p ev w air (D : R -> Prop) : xMade p ev w -> (forall h, In h (w_hs w) -> h_type h = TCompressor -> h_mlAir h < air) ->
  (forall h, In h (w_hs w) -> h_type h = TCompressor -> forall (u : hpwh R) c, D c -> exists q, getPerformance u h air c = Ok q /\ 0 < p_out q) -> unitReadyX True air D w.
Proof.
  intros [HG HU HS HL (I1 & I2 & I3)] HA HP. constructor; auto.
  - destruct (xu_inlet_T _ _ _ HU) as (-> & _). destruct (xu_sp _ _ _ HU) as (-> & _). eapply xlist_ready; eauto.
  - intros E. destruct (xu_soc _ _ _ HU) as (E' & _). congruence.
Qed.
Lemma made_conduction p ev w : xMade p ev w -> condTau (w_tank w) (w_secStep w) <= 1.
Proof.
  intros HM. destruct (made_nodes _ _ _ HM) as (HN & H1 & H2 & H3 & H4). destruct HM as [HG HU HS HL HI]. destruct (xu_step _ _ _ HU) as (_ & -> & _).
  destruct (C37_size_constants_fact (w_tank w)) as (_ & _ & _ & _ & _ & S6 & _); [lra|rewrite (xu_Ts _ _ _ HU); destruct (xg_nodes _ HG) as [-> | ->]; discriminate|]. rewrite <- HS in S6. rewrite HN in S6.
  destruct (C37_one_cylinder_fact (t_volume (w_tank w))) as (r & (HR & HCy) & E & _); [lra|]. rewrite E in S6.
  assert (H5 : 4 / 10 <= r). { destruct (Rle_dec (4 / 10) r); auto. exfalso. assert (r * r <= 16 / 100) by nra. assert (r * r * r <= 64 / 1000) by nra. lra. }
  set (nh := t_nodeHeight (w_tank w)) in *.
  assert (HNH : 1 / 200 <= nh). { assert (475 / 100 * (4 / 10 / (32808 / 10000)) <= 475 / 100 * (r / (32808 / 10000))) by (apply Rmult_le_compat_l; [lra|]; unfold Rdiv; apply Rmult_le_compat_r; lra). destruct (Rle_lt_dec (1 / 200) nh); auto. exfalso. assert (INR (xp_nodes p) * nh <= 96 * (1 / 200)); [|lra]. destruct (Rle_lt_dec 0 nh); [apply Rmult_le_compat; lra|nra]. }
  unfold condTau. fold nh. unfold KWATER, CPWATER, DENSITYWATER, dec. num_simpl. assert (HQ : 1 / 40000 <= nh * nh) by nra.
  set (q := nh * nh) in *. clearbody q. apply (Rmult_le_reg_r q); [lra|].
  match goal with |- ?a / (?b * ?c * q) * ?s * q <= _ => replace (a / (b * c * q) * s * q) with (a / (b * c) * s) by (field; lra) end. lra.
Qed.
Lemma made_calm p ev w lo hi : xMade p ev w -> xp_multi p = false -> lo <= w_setpoint w <= hi -> calmUnit lo hi w.
Proof.
  intros HM HNM HB. destruct (made_nodes _ _ _ HM) as (HN & H1 & H2 & H3 & H4). destruct HM as [HG HU HS HL HI]. destruct (final_bounds p HG) as (_ & B2). rewrite <- (xu_vol _ _ _ HU), <- (xu_UA _ _ _ HU) in B2.
  destruct (C37_size_constants_fact (w_tank w)) as (S1 & S2 & S3 & S4 & S5 & S6 & S7); [lra|rewrite (xu_Ts _ _ _ HU); destruct (xg_nodes _ HG) as [-> | ->]; discriminate|]. rewrite <- HS in S1, S2, S3, S4, S5, S6, S7. rewrite HN in *.
  destruct (xu_step _ _ _ HU) as (T1 & T2 & T3). destruct (xu_sp _ _ _ HU) as (ES & _). pose proof (xu_Ts _ _ _ HU) as ET. rewrite <- ES in ET.
  destruct (C37_one_cylinder_fact (t_volume (w_tank w))) as (r & (HR & HCy) & E & _); [lra|]. rewrite E in S6.
  constructor; rewrite ?T2, ?T3, ?(xu_fit _ _ _ HU); try lra.
  - apply HU.
  - rewrite ET. intros i Hi. rewrite repeat_length in Hi. unfold node. rewrite !nth_repeat_in by lia. lra.
  - apply Forall_forall. intros h HI' (X1 & X2 & X3). destruct HL as [h' _ HX|watts d t b h' _ HT HB' HX]; cbn [In] in HI'.
    + destruct HI' as [<-|[]]. rewrite (xc_multi _ _ _ _ HX) in X3. congruence.
    + destruct HI' as [<-|[<-|[<-|[]]]]; [rewrite (xe_type _ _ _ _ HT) in X1; discriminate|rewrite (xe_type _ _ _ _ HB') in X1; discriminate|rewrite (xc_multi _ _ _ _ HX) in X3; congruence].
  - intros c HI'. rewrite ET in HI'. apply repeat_spec in HI'. subst c. lra.
  - assert (HP : 0 < 475 / 100 * (r / (32808 / 10000))) by (apply Rmult_lt_0_compat; [lra|]; unfold Rdiv; apply Rmult_lt_0_compat; lra). intros HZ. rewrite HZ in S6. lra.
  - intros ends ->. rewrite HN, S7. replace (Nat.eqb (xp_nodes p) 1) with false by (symmetry; apply Nat.eqb_neq; lia). rewrite H3. set (ft := t_fracTop (w_tank w)) in *. set (fs := t_fracSide (w_tank w)) in *. set (ua := t_UA (w_tank w)) in *. set (V := t_volume (w_tank w)) in *. set (k := INR (xp_nodes p)) in *. clearbody ft fs ua V k.
    unfold CPWATER, DENSITYWATER, dec. num_simpl. clear - H2 H4 B2 S1 S2 S3.
    assert (HK : 0 < / k <= 1) by (split; [apply Rinv_0_lt_compat; lra|replace 1 with (/ 1) by lra; apply Rinv_le_contravar; lra]).
    assert (HU1 : ua * fs / k <= ua * fs) by (unfold Rdiv; assert (0 <= ua * fs) by nra; nra). assert (HU2 : ua * ft <= ua) by nra. assert (HU3 : ua * fs <= ua) by nra.
    replace (1 / 60 * (1 * (ua * ft) + (ua * fs + 0) / k) / (418 / 100 * (995 / 1000) * (V / k))) with ((1 * (ua * ft) + ua * fs / k) * (k / (60 * (418 / 100) * (995 / 1000))) / V) by (field; lra).
    apply (Rmult_le_reg_r V); [lra|]. unfold Rdiv at 1. rewrite Rmult_assoc, Rinv_l by lra.
    assert (HQ : 0 < k / (60 * (418 / 100) * (995 / 1000)) <= 96 / (60 * (418 / 100) * (995 / 1000))) by lra. set (z := k / _) in *. clearbody z. assert ((1 * (ua * ft) + ua * fs / k) * z <= 2 * ua * z) by (apply Rmult_le_compat_r; lra). nra.
Qed.

Lemma made_comp p ev w : xMade p ev w -> forall h, In h (w_hs w) -> h_type h = TCompressor -> exists bk, xComp p ev bk h.
Proof.
  intros HM h HI HT. pose proof (xm_list _ _ _ HM) as HL. destruct HL as [h' _ HX|watts d t b h' _ HE HB HX]; cbn [In] in HI.
  - destruct HI as [<-|[]]. eauto.
  - destruct HI as [<-|[<-|[<-|[]]]]; [rewrite (xe_type _ _ _ _ HE) in HT; discriminate|rewrite (xe_type _ _ _ _ HB) in HT; discriminate|eauto].
Qed.
Lemma C106_delivers_fact : forall m ev junk (w w' : hpwh R), initExternal (xpresetOf m) ev junk w = (Ok tt, w') ->
  forall a0 a1 C air cond (u : hpwh R) h, deliversHeat ev a0 a1 C -> In h (w_hs w') -> h_type h = TCompressor ->
  a0 <= air -> air + (match xp_resDefrost (xpresetOf m) with Some _ => 25 / 9 | None => 0 end) <= a1 -> (forall y, 0 <= y <= (match xp_shx (xpresetOf m) with Some _ => 10 | None => 0 end) -> C (cond + y)) ->
  exists q, getPerformance u h air cond = Ok q /\ 0 < p_in q /\ 0 < p_out q.
Proof.
  intros m ev junk w w' E a0 a1 C air cond u h HD HI HT H0 H1 HY. pose proof (preset_made _ _ _ _ _ E) as HM. pose proof (all_xrun m) as HC. destruct (made_comp _ _ _ HM h HI HT) as (bk & HX). eapply xperf; eauto.
Qed.
Lemma C106_single_pass_fact : forall m ev junk (w w' : hpwh R), initExternal (xpresetOf m) ev junk w = (Ok tt, w') -> xp_multi (xpresetOf m) = false ->
  forall lo fuel rows, lo <= w_setpoint w' -> (length (t_Ts (w_tank w')) * length (t_Ts (w_tank w')) < fuel)%nat -> INR (length (t_Ts (w_tank w'))) * (1 + (w_setpoint w' - lo) * 10000) + 2 <= INR fuel ->
  (forall r, In r rows -> 0 <= r_draw r /\ r_draw r * INR (length (t_Ts (w_tank w'))) / t_volume (w_tank w') <= INR fuel /\ heatsAt (w_hs w') (r_ext r) (fun c => lo <= c <= w_setpoint w') /\
    (forall h, In h (w_hs w') -> h_type h = TCompressor -> h_mlAir h < r_ext r) /\ lo <= r_amb r <= w_setpoint w' /\ lo <= r_inletT r <= w_setpoint w') -> Rsum (map r_draw rows) <> 0 ->
  exists ws wl w2, SeqProofs.runs fuel rows w' ws wl /\ runNSteps fuel rows w' = (Ok tt, w2) /\ Forall (fun v => within lo (w_setpoint w') (t_Ts (w_tank v))) ws /\
    tankHeat (w_tank w2) = tankHeat (w_tank w')
      + CPWATER * DENSITYWATER * (Rsum (map (fun r => r_draw r * r_inletT r) rows) - t_outletT (w_tank w2) * Rsum (map r_draw rows))
      + 3600 * Rsum (map h_eOut (w_hs w2)) - 3600 * w_stbyE w2.
Proof.
  intros m ev junk w w' E EM lo fuel rows HLo F1 FP F2 F3. pose proof (preset_made _ _ _ _ _ E) as HM. pose proof (all_xrun m) as HC. clear E. generalize dependent (xpresetOf m). intros p EM HM HC.
  destruct (made_nodes _ _ _ HM) as (HN & H1 & H2 & H3 & H4). pose proof (xm_unit _ _ _ HM) as HU. pose proof (xm_good _ _ _ HM) as HG.
  set (D := fun c => lo <= c <= w_setpoint w') in *. pose proof (made_calm _ _ _ lo (w_setpoint w') HM EM ltac:(lra)) as HCm.
  assert (HCal : calmRun rows lo (w_setpoint w') w'). { split; auto. split; [apply (xu_dep _ _ _ HU)|]. intros r HI. destruct (F2 r HI) as (_ & _ & _ & _ & A & B). auto. }
  assert (HR : forall r, In r rows -> unitOK (r_ext r) D w' /\ unitReadyX True (r_ext r) D w' /\ 0 <= r_draw r /\ r_draw r / t_nodeVol (w_tank w') <= INR fuel).
  { intros r HI. destruct (F2 r HI) as (G1 & G2 & G3 & G4 & _). split; [eapply made_ok; eauto|]. split; [eapply made_ready; eauto|]. split; auto. rewrite H3, <- HN in *. replace (r_draw r / (t_volume (w_tank w') / INR (length (t_Ts (w_tank w'))))) with (r_draw r * INR (length (t_Ts (w_tank w'))) / t_volume (w_tank w')) by (field; lra). auto. }
  assert (HCov : coveredRun D rows w') by (right; exists lo, (w_setpoint w'); split; [auto|exact HCal]).
  assert (HX : extReady fuel D (fun lo => calmRun rows lo (w_setpoint w') w') w').
  { intros h HI HT _. cbv zeta. destruct (made_comp _ _ _ HM h HI HT) as (bk & HX). rewrite (xc_multi _ _ _ _ HX), EM. destruct (xc_ports _ _ _ _ HX) as (P1 & P2). pose proof (xg_return _ HG) as GR. rewrite EM in GR. rewrite GR in P2.
    split; [split; [exact P1|rewrite HN; exact P2]|]. split; [lia|]. split; [eapply x_stopsHot; eauto|]. exists lo. split; [auto|]. split; [exact HCal|]. unfold passes. exact FP. }
  assert (F4 : t_mixBelowFrac (w_tank w') <= 1) by (destruct (xu_draw _ _ _ HU) as (_ & ->); lra). assert (F5 : t_doCond (w_tank w') = true -> condTau (w_tank w') (w_secStep w') <= 1) by (intros _; eapply made_conduction; eauto).
  pose proof F1 as F6. assert (F7 : 0 < w_minStep w') by (destruct (xu_step _ _ _ HU) as (-> & _); lra). pose proof (xu_dep _ _ _ HU) as (F8 & _).
  destruct (runs_succ_ext (X:=True) fuel D rows w' F8 F7 HCov HR HX F4 F5 F6) as (ws & wl & HW). destruct (C101_run_completes_fact fuel D rows w' F8 F7 HCov HR HX F3 F4 F5 F6) as (w2 & E2 & EB).
  exists ws, wl, w2. split; auto. split; auto. split; auto. apply (C30_run_range_fact fuel D lo (w_setpoint w') rows w' wl ws); auto.
  - intros air HI. apply in_map_iff in HI. destruct HI as (r & <- & HI). apply HR; auto.
  - intros r HI. destruct (F2 r HI) as (_ & _ & _ & _ & A & B). auto.
Qed.
Lemma C106_multi_pass_fact : forall m ev junk (w w' : hpwh R), initExternal (xpresetOf m) ev junk w = (Ok tt, w') -> xp_multi (xpresetOf m) = true ->
  forall fuel rows, (576 < fuel)%nat ->
  (forall r, In r rows -> 0 <= r_draw r /\ r_draw r * INR (length (t_Ts (w_tank w'))) / t_volume (w_tank w') <= INR fuel /\ heatsAt (w_hs w') (r_ext r) (fun _ => True) /\
    (forall h, In h (w_hs w') -> h_type h = TCompressor -> h_mlAir h < r_ext r)) -> Rsum (map r_draw rows) <> 0 ->
  exists w2, runNSteps fuel rows w' = (Ok tt, w2) /\
    tankHeat (w_tank w2) = tankHeat (w_tank w')
      + CPWATER * DENSITYWATER * (Rsum (map (fun r => r_draw r * r_inletT r) rows) - t_outletT (w_tank w2) * Rsum (map r_draw rows))
      + 3600 * Rsum (map h_eOut (w_hs w2)) - 3600 * w_stbyE w2.
Proof.
  intros m ev junk w w' E EM fuel rows F1 F2 F3. pose proof (preset_made _ _ _ _ _ E) as HM. pose proof (all_xrun m) as HC. clear E. generalize dependent (xpresetOf m). intros p EM HM HC.
  destruct (made_nodes _ _ _ HM) as (HN & H1 & H2 & H3 & H4). pose proof (xm_unit _ _ _ HM) as HU. pose proof (xm_good _ _ _ HM) as HG. pose proof (xg_return _ HG) as GR. rewrite EM in GR. destruct GR as (GR & GN).
  set (D := fun _ : R => True) in *.
  assert (HR : forall r, In r rows -> unitOK (r_ext r) D w' /\ unitReadyX True (r_ext r) D w' /\ 0 <= r_draw r /\ r_draw r / t_nodeVol (w_tank w') <= INR fuel).
  { intros r HI. destruct (F2 r HI) as (G1 & G2 & G3 & G4). split; [eapply made_ok; eauto|]. split; [eapply made_ready; eauto|]. split; auto. rewrite H3, <- HN in *. replace (r_draw r / (t_volume (w_tank w') / INR (length (t_Ts (w_tank w'))))) with (r_draw r * INR (length (t_Ts (w_tank w'))) / t_volume (w_tank w')) by (field; lra). auto. }
  assert (HCov : coveredRun D rows w') by (left; intros; exact I). destruct (xu_step _ _ _ HU) as (T1 & _).
  assert (HX : extReady fuel D (fun lo => calmRun rows lo (w_setpoint w') w') w').
  { intros h HI HT _. cbv zeta. destruct (made_comp _ _ _ HM h HI HT) as (bk & HX). rewrite (xc_multi _ _ _ _ HX), EM. destruct (xc_ports _ _ _ _ HX) as (P1 & P2). rewrite GR, GN in P2. rewrite P1, P2, HN, GN. split; [cbn; lia|]. split; [cbn; lia|].
    pose proof (xflow _ _ _ _ HX HC EM) as HFl. rewrite T1, H3, GN. replace (INR 24) with 24 by (cbn; lra). assert (HF : INR 577 <= INR fuel) by (apply le_INR; lia). assert (HV : 577 <= INR fuel) by (apply Rle_trans with (INR 577); auto; rewrite INR_IZR_INZ; cbn; lra).
    apply Rle_trans with 577; auto. set (V := t_volume (w_tank w')) in *. clearbody V. apply Rmult_le_reg_r with (V / 24); [lra|]. unfold Rdiv at 1. rewrite Rmult_assoc, Rinv_l by lra. lra. }
  assert (F4 : t_mixBelowFrac (w_tank w') <= 1) by (destruct (xu_draw _ _ _ HU) as (_ & ->); lra). assert (F5 : t_doCond (w_tank w') = true -> condTau (w_tank w') (w_secStep w') <= 1) by (intros _; eapply made_conduction; eauto).
  assert (F6 : (length (t_Ts (w_tank w')) * length (t_Ts (w_tank w')) < fuel)%nat) by (rewrite HN, GN; cbn; lia). assert (F7 : 0 < w_minStep w') by lra. pose proof (xu_dep _ _ _ HU) as (F8 & _).
  destruct (C101_run_completes_fact fuel D rows w' F8 F7 HCov HR HX F3 F4 F5 F6) as (w2 & E2 & EB). exists w2. auto.
Qed.

Lemma sanco_delivers : deliversHeat (polyFun (lpoly sancoMap)) (-245 / 9) (620 / 9) (fun c => 0 <= c <= 65).
Proof.
  intros sp a c HA HC. assert (HM : mapOK sancoMap (Qmake (-17) 1) (Qmake 156 1) (Qmake 32 1) (Qmake 149 1) = true) by (vm_compute; reflexivity).
  destruct (map_pos _ _ _ _ _ HM sp a c) as (i & e & E & H1 & H2); [unfold Q2R; cbn [Qnum Qden]; lra|unfold Q2R; cbn [Qnum Qden]; lra|]. rewrite E. cbn [p_in p_cop]. auto.
Qed.
Lemma sanco_data m : In m sancos -> let p := xpresetOf m in xp_multi p = false /\ xp_resDefrost p = None /\ xp_shx p = None /\ xp_low p = None /\ xp_nodes p = 96%nat /\ xp_setpoint p = Lit 65 1 /\ xp_minT p = FtoC (Lit (-25) 1).
Proof. intros HI. cbn [sancos In] in HI. destruct HI as [<-|[<-|[<-|[<-|[]]]]]; cbv zeta; (split; [|split; [|split; [|split; [|split; [|split]]]]]); reflexivity. Qed.
Lemma sanco_unit m ev junk (w w' : hpwh R) : In m sancos -> initExternal (xpresetOf m) ev junk w = (Ok tt, w') -> w_setpoint w' = 65 /\ length (t_Ts (w_tank w')) = 96%nat /\ (forall h, In h (w_hs w') -> h_type h = TCompressor -> h_mlAir h = -27315 / 100).
Proof.
  intros HI E. destruct (sanco_data m HI) as (D1 & D2 & D3 & D4 & D5 & D6 & D7). pose proof (preset_made _ _ _ _ _ E) as HM. clear E. generalize dependent (xpresetOf m). intros p D1 D2 D3 D4 D5 D6 D7 HM.
  split; [|split].
  - destruct (xu_sp _ _ _ (xm_unit _ _ _ HM)) as (-> & _). rewrite D6. rewrite <- qv_ok by (vm_compute; reflexivity). unfold Q2R. cbn. lra.
  - destruct (made_nodes _ _ _ HM) as (-> & _). exact D5.
  - intros h HI' HT. destruct (made_comp _ _ _ HM h HI' HT) as (bk & HX). destruct (xc_low _ _ _ _ HX) as (_ & ->). rewrite D4. reflexivity.
Qed.
Lemma C106_sanco_fact : forall m junk (w w' : hpwh R), In m sancos -> initExternal (xpresetOf m) (polyFun (lpoly sancoMap)) junk w = (Ok tt, w') ->
  forall fuel rows, 62400098 <= INR fuel ->
  (forall r, In r rows -> 0 <= r_draw r /\ r_draw r * 96 / t_volume (w_tank w') <= INR fuel /\ -17 <= 9 / 5 * r_ext r + 32 <= 156 /\ 0 <= r_amb r <= 65 /\ 0 <= r_inletT r <= 65) -> Rsum (map r_draw rows) <> 0 ->
  exists ws wl w2, SeqProofs.runs fuel rows w' ws wl /\ runNSteps fuel rows w' = (Ok tt, w2) /\ Forall (fun v => within 0 65 (t_Ts (w_tank v))) ws /\
    tankHeat (w_tank w2) = tankHeat (w_tank w')
      + CPWATER * DENSITYWATER * (Rsum (map (fun r => r_draw r * r_inletT r) rows) - t_outletT (w_tank w2) * Rsum (map r_draw rows))
      + 3600 * Rsum (map h_eOut (w_hs w2)) - 3600 * w_stbyE w2.
Proof.
  intros m junk w w' HI E fuel rows HF HR HS. destruct (sanco_unit _ _ _ _ _ HI E) as (ES & EN & EA). destruct (sanco_data m HI) as (D1 & D2 & D3 & D4 & D5 & D6 & D7).
  pose proof (C106_single_pass_fact m _ junk w w' E D1 0 fuel rows) as HP. rewrite ES, EN in HP. replace (INR 96) with 96 in HP by (rewrite INR_IZR_INZ; cbn; lra). apply HP; auto; try lra.
  - apply INR_lt. rewrite INR_IZR_INZ. cbn. lra.
  - intros r HIr. destruct (HR r HIr) as (G1 & G2 & G3 & G4 & G5). split; [auto|]. split; [auto|]. split; [|split; [|split; auto]].
    + intros h HIh HT u c HC. destruct (C106_delivers_fact m _ junk w w' E (-245 / 9) (620 / 9) (fun c => 0 <= c <= 65) (r_ext r) c u h sanco_delivers HIh HT) as (q & Eq & _ & Q2); [lra|rewrite D2; lra|rewrite D3; intros y Hy; lra|]. eauto.
    + intros h HIh HT. rewrite (EA h HIh HT). lra.
Qed.

Lemma sanco_cold_map sp : exists q, polyFun (lpoly sancoMap) sp (lval (T:=R) (FtoC (Lit (-25) 1))) 65 = q /\ 0 < p_in q /\ p_cop q < 0.
Proof.
  assert (EA : lval (T:=R) (FtoC (Lit (-25) 1)) = -95 / 3) by (rewrite <- qv_ok by (vm_compute; reflexivity); unfold Q2R; cbn; lra). rewrite EA.
  assert (EC : C_TO_F (T:=R) (-95 / 3) = -25) by (unfold C_TO_F, offsetF, FperC, dec; num_simpl; lra). assert (EX : C_TO_F (T:=R) 65 = 149) by (unfold C_TO_F, offsetF, FperC, dec; num_simpl; lra).
  unfold polyFun, polyEval. rewrite EC, EX. unfold lpoly, sancoMap. cbn [map lval]. unfold evalLoop. cbn [length Nat.ltb Nat.leb nth_error pp_T]. unfold dec; num_simpl. cbn [Z.eqb Pos.eqb]. replace (Rltb (-25) 17) with true by (symmetry; apply Rltb_true; lra). cbn [atPoint nth_error obind quadratic pp_cop pp_in pp_T]. num_simpl. cbn [obind].
  match goal with |- context [if ?b then _ else UB _] => replace b with true; [|symmetry; apply negb_true_iff; destruct (Reqb' (35 - 17) 0) eqn:EQ; [apply Reqb'_true in EQ; lra|reflexivity]] end.
  eexists. split; [reflexivity|]. unfold linearInterp. cbn [p_in p_cop]. num_simpl. split; lra.
Qed.
Lemma C106_sanco_cold_fact : forall m junk (w w' : hpwh R), In m sancos -> initExternal (xpresetOf m) (polyFun (lpoly sancoMap)) junk w = (Ok tt, w') ->
  forall h (u : hpwh R), In h (w_hs w') -> h_type h = TCompressor -> exists q, getPerformance u h (h_minT h) (w_setpoint w') = Ok q /\ 0 < p_in q /\ p_out q < 0.
Proof.
  intros m junk w w' HI E h u Hh HT. destruct (sanco_unit _ _ _ _ _ HI E) as (-> & _). destruct (sanco_data m HI) as (D1 & D2 & D3 & D4 & D5 & D6 & D7). pose proof (preset_made _ _ _ _ _ E) as HM. pose proof (all_xrun m) as HC.
  assert (DF : xp_defrost (xpresetOf m) = false) by (cbn [sancos In] in HI; destruct HI as [<-|[<-|[<-|[<-|[]]]]]; reflexivity).
  destruct (made_comp _ _ _ HM h Hh HT) as (bk & HX). clear E HM. generalize dependent (xpresetOf m). intros p D1 D2 D3 D4 D5 D6 D7 HC DF HX.
  destruct (xc_range _ _ _ _ HX) as (R1 & _). pose proof (xc_rd _ _ _ _ HX) as RD. rewrite D2 in RD. pose proof (xc_shx _ _ _ _ HX) as SX. rewrite D3 in SX. unfold triple in RD, SX. injection RD as RD1 RD2 RD3. injection SX as SX1 SX2 SX3. destruct (xc_defrost _ _ _ _ HX) as (DD & _). rewrite DF in DD. destruct (xc_scale _ _ _ _ HX) as (S1 & S2).
  pose proof (xc_air _ _ _ _ HX) as A1. pose proof (xc_eval _ _ _ _ HX) as EV. unfold getPerformance. rewrite R1, D7, RD1, SX1, DD, S1, S2, A1, EV. num_simpl. replace (Rltb 0 0) with false by (symmetry; apply Rltb_false; lra). cbn [andb obind]. rewrite Rplus_0_r.
  destruct (sanco_cold_map (w_setpoint u)) as (q & Eq & Q1 & Q2). rewrite Eq. eexists. split; [reflexivity|]. cbn [p_in p_out].
  unfold nneqb. num_simpl. replace (Reqb' 1 1) with true by (symmetry; apply Reqb'_true; lra). cbn [negb]. split; nra.
Qed.
Lemma C106_example_fact : forall junk (w : hpwh R), exists fuel w' w2, initExternal (xpresetOf X_Sanco83) (polyFun (lpoly sancoMap)) junk w = (Ok tt, w') /\
  runNSteps fuel (repeat (mkrow 10 3 20 (-10) 0%Z) 60) w' = (Ok tt, w2).
Proof.
  intros junk w. destruct (C105_accepts_fact X_Sanco83 (polyFun (lpoly sancoMap)) junk w) as (w' & E). exists (Z.to_nat 62400098), w'.
  assert (HF : INR (Z.to_nat 62400098) = 62400098) by (rewrite INR_IZR_INZ, Z2Nat.id by lia; reflexivity).
  destruct (C105_result_fact _ _ _ _ _ E) as (_ & _ & _ & _ & HV & _).
  destruct (C106_sanco_fact X_Sanco83 junk w w' (or_introl eq_refl) E (Z.to_nat 62400098) (repeat (mkrow 10 3 20 (-10) 0%Z) 60)) as (ws & wl & w2 & _ & R2 & _).
  - rewrite HF; lra.
  - intros r HI. apply repeat_spec in HI. subst r. cbn [r_inletT r_draw r_amb r_ext]. rewrite HF. splits; try lra. apply Rmult_le_reg_r with (t_volume (w_tank w')); [lra|]. unfold Rdiv. rewrite Rmult_assoc, Rinv_l by lra. lra.
  - unfold Rsum. cbn [repeat map r_draw fold_right]. lra.
  - exists w2. auto.
Qed.
Lemma C106_multi_example_fact : forall junk (w : hpwh R), exists fuel w' w2, initExternal (xpresetOf X_ColmacCxV_5_MP) (fun _ _ _ => mkperf 5000 15000 3) junk w = (Ok tt, w') /\
  runNSteps fuel (repeat (mkrow 10 3 20 20 0%Z) 60) w' = (Ok tt, w2).
Proof.
  intros junk w. destruct (C105_accepts_fact X_ColmacCxV_5_MP (fun _ _ _ => mkperf 5000 15000 3) junk w) as (w' & E). exists 577%nat, w'.
  destruct (C105_result_fact _ _ _ _ _ E) as (HL & _ & _ & _ & HV & _). assert (HD : deliversHeat (fun _ _ _ => mkperf 5000 15000 3) 0 100 (fun _ => True)) by (intros sp a c _ _; cbn [p_in p_cop]; lra).
  assert (HI5 : INR 577 = 577) by (rewrite INR_IZR_INZ; reflexivity). assert (HLL : 0 <= INR (length (t_Ts (w_tank w'))) <= 96) by (destruct HL as [-> | ->]; rewrite INR_IZR_INZ; cbn; lra).
  destruct (C106_multi_pass_fact X_ColmacCxV_5_MP _ junk w w' E eq_refl 577%nat (repeat (mkrow 10 3 20 20 0%Z) 60)) as (w2 & R2 & _).
  - lia.
  - intros r HI. apply repeat_spec in HI. subst r. cbn [r_inletT r_draw r_amb r_ext]. rewrite HI5. split; [lra|]. split; [|split].
    + apply Rmult_le_reg_r with (t_volume (w_tank w')); [lra|]. unfold Rdiv. rewrite Rmult_assoc, Rinv_l by lra. lra.
    + intros h Hh HT u c _. destruct (C106_delivers_fact X_ColmacCxV_5_MP _ junk w w' E 0 100 (fun _ => True) 20 c u h HD Hh HT) as (q & Q1 & _ & Q2); [lra|destruct (xp_resDefrost (xpresetOf X_ColmacCxV_5_MP)); lra|auto|eauto].
    + intros h Hh HT. destruct (made_comp _ _ _ (preset_made _ _ _ _ _ E) h Hh HT) as (bk & HX). destruct (xc_low _ _ _ _ HX) as (_ & ->). 
      replace (xp_low (xpresetOf X_ColmacCxV_5_MP)) with (@None (lnum * lnum)) by reflexivity. lra.
  - unfold Rsum. cbn [repeat map r_draw fold_right]. lra.
  - exists w2. auto.
Qed.
