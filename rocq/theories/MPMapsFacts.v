(** Proofs of the theorems stated in PropsMPMaps.v: Properties of the performance maps of the Colmac multi-pass presets *)

From Coq Require Import ZArith QArith Qreals String List Bool Reals Lra Lia.
From Verif Require Import Num FNum Base Units Utils Types TankM Logic HeatSrc Step Setters Config Perf Rating Fitter DataModel Init Legacy ExtPreset ExtTable ExtMaps ExtMapsMP Spec SpecState SpecDist SpecEnergy SpecStep SpecExt SpecExtPreset SpecMPMap.
From Verif Require Import RList FrameProofs SeqProofs EnergyFacts LegacyFacts ExtPresetsFacts SPMapsFacts Example.
Import ListNotations.
Local Open Scope R_scope.
(** the polynomial in two variables as one in three *)
Definition scaledMP (l : list lnum) : option (cubic Z) :=
  match l with
  | [c0; c1; c2; c3; c4; c5] => scaled [c0; c1; Lit 0 1; c2; c3; Lit 0 1; c4; Lit 0 1; c5; Lit 0 1; Lit 0 1]
  | _ => None
  end.
Lemma scaledMP_ok l c x z : scaledMP l = Some c -> exists v, regressedMethodMP (map (lval (T:=R)) l) x z = Ok v /\ v * (1000000000000 * 134217728) = rcub (icub c) (512 * x) (IZR 0) (512 * z).
Proof.
  unfold scaledMP. intros E. destruct l as [|c0 [|c1 [|c2 [|c3 [|c4 [|c5 [|c6 l]]]]]]]; try discriminate E.
  destruct (scaled_ok _ c x 0 z E) as (v & E1 & E2). exists v. split.
  - rewrite <- E1. cbn [map regressedMethod regressedMethodMP]. num_simpl. f_equal. replace (lval (T:=R) (Lit 0 1)) with 0 by (cbn [lval Z.eqb Pos.eqb]; num_simpl; reflexivity). ring.
  - rewrite E2. rewrite Rmult_0_r. reflexivity.
Qed.
Definition boxMP (l : list lnum) (a0 a1 c0 c1 : Z) : bool :=
  match scaledMP l with Some c => posBox (zbound c) 6 (256 * (a0 + a1)) 0 (256 * (c0 + c1)) (256 * (a1 - a0)) 0 (256 * (c1 - c0)) | None => false end.
Lemma boxMP_pos l a0 a1 c0 c1 x z : boxMP l a0 a1 c0 c1 = true -> IZR a0 <= x <= IZR a1 -> IZR c0 <= z <= IZR c1 -> exists v, regressedMethodMP (map (lval (T:=R)) l) x z = Ok v /\ 0 < v.
Proof.
  unfold boxMP. intros HB HX HZ. destruct (scaledMP l) as [c|] eqn:E; [|discriminate]. destruct (scaledMP_ok l c x z E) as (v & E1 & E2). exists v. split; [exact E1|].
  assert (0 < rcub (icub c) (512 * x) (IZR 0) (512 * z)); [|lra]. eapply (posBox_ok (zbound c) (rcub (icub c)) (zbound_ok c)); [exact HB| | |]; apply Rabs_le; rewrite ?mult_IZR, ?plus_IZR, ?minus_IZR; lra.
Qed.
Lemma mp_data m k : mpMapOf m = Some k -> let p := xpresetOf m in exists lo mx, xp_minT p = FtoC (Lit lo 1) /\ xp_maxT p = Some (FtoC (Lit 105 1)) /\ xp_maxSet p = FtoC (Lit mx 1) /\ (lo <= 40)%Z /\
  xp_setpoint p = FtoC (Lit 135 1) /\ xp_multi p = true /\ xp_resDefrost p = None /\ xp_shx p = None /\ (135 <= mx)%Z /\ boxMP (fst k) lo 105 32 mx = true /\ boxMP (snd k) lo 105 32 mx = true.
Proof.
  intros E. destruct m; try discriminate E; injection E as <-; cbv zeta; eexists _, _;
    (split; [reflexivity|]); (split; [reflexivity|]); (split; [reflexivity|]); (split; [lia|]); (split; [reflexivity|]); (split; [reflexivity|]); (split; [reflexivity|]); (split; [reflexivity|]); (split; [lia|]); split; vm_compute; reflexivity.
Qed.
Lemma mpFun_eq (k : mpMap) a c (i e : R) : regressedMethodMP (map (lval (T:=R)) (fst k)) (9 / 5 * a + 32) (9 / 5 * c + 32) = Ok i -> regressedMethodMP (map (lval (T:=R)) (snd k)) (9 / 5 * a + 32) (9 / 5 * c + 32) = Ok e ->
  mpFun k a c = mkperf (1000 * i) (e * (1000 * i)) e.
Proof. intros EI EE. unfold mpFun, polyMP. cbn [pp_in pp_cop]. rewrite !c_to_f, EI, EE. cbn [obind]. unfold KW_TO_W. num_simpl. reflexivity. Qed.

Lemma C110_positive_fact : forall m k, mpMapOf m = Some k -> forall a c : R, lval (xp_minT (xpresetOf m)) <= a -> 9 / 5 * a + 32 <= 105 -> 0 <= c <= lval (xp_maxSet (xpresetOf m)) ->
  0 < p_in (mpFun k a c) /\ 0 < p_cop (mpFun k a c) /\ p_out (mpFun k a c) = p_cop (mpFun k a c) * p_in (mpFun k a c).
Proof.
  intros m k HK a c H3 H4 H5. destruct (mp_data m k HK) as (lo & mx & D1 & _ & D2 & _ & _ & _ & _ & _ & _ & B1 & B2). rewrite D1 in H3. rewrite D2 in H5. rewrite lvalF in H3, H5.
  destruct (boxMP_pos _ _ _ _ _ (9 / 5 * a + 32) (9 / 5 * c + 32) B1) as (i & EI & HI); [lra|lra|]. destruct (boxMP_pos _ _ _ _ _ (9 / 5 * a + 32) (9 / 5 * c + 32) B2) as (e & EE & HE); [lra|lra|].
  rewrite (mpFun_eq _ _ _ _ _ EI EE). cbn [p_in p_cop p_out]. splits; nra.
Qed.
Lemma C110_delivers_fact : forall m k junk (w w' : hpwh R), mpMapOf m = Some k -> initExternal (xpresetOf m) (fun _ => mpFun k) junk w = (Ok tt, w') ->
  forall h (u : hpwh R) air c, In h (w_hs w') -> h_type h = TCompressor -> h_minT h <= air <= h_maxT h -> 0 <= c <= h_maxSet h -> exists q, getPerformance u h air c = Ok q /\ 0 < p_in q /\ 0 < p_out q.
Proof.
  intros m k junk w w' HK E h u air c HI HT HA HC. destruct (mp_data m k HK) as (lo & mx & D1 & D1' & D2 & _ & _ & _ & D7 & D8 & _). pose proof (preset_made _ _ _ _ _ E) as HM. destruct (made_comp _ _ _ HM h HI HT) as (bk & HX).
  destruct (xc_range _ _ _ _ HX) as (R1 & R2 & _). rewrite R1, R2, D1' in HA. unfold odef in HA. rewrite lvalF in HA. rewrite (xc_maxSet _ _ _ _ HX) in HC.
  assert (HD : deliversHeat (fun _ => mpFun k) (lval (xp_minT (xpresetOf m))) (365 / 9) (fun c => 0 <= c <= lval (xp_maxSet (xpresetOf m)))).
  { intros sp a y Ha Hy. destruct (C110_positive_fact m k HK a y) as (Q1 & Q2 & _); try lra; auto. }
  apply (C106_delivers_fact m _ junk w w' E _ _ _ air c u h HD HI HT); [lra|rewrite D7; lra|rewrite D8; intros y Hy; lra].
Qed.
Definition moreMP (k1 k2 : mpMap) : bool :=
  match scaledMP (fst k1), scaledMP (snd k1), scaledMP (fst k2), scaledMP (snd k2) with
  | Some i1, Some e1, Some i2, Some e2 => allBox (moreTest zbound i1 e1 i2 e2 0) 8 (256 * (40 + 105)) (256 * (32 + 135)) (256 * (105 - 40)) (256 * (135 - 32))
  | _, _, _, _ => false
  end.
Lemma moreMP_pos k1 k2 a c : moreMP k1 k2 = true -> 40 <= 9 / 5 * a + 32 <= 105 -> 0 <= c <= 515 / 9 -> 0 < p_in (mpFun k1 a c) -> 0 < p_cop (mpFun k1 a c) -> p_out (mpFun k1 a c) < p_out (mpFun k2 a c).
Proof.
  unfold moreMP. intros HM HA HC P1 P2. destruct (scaledMP (fst k1)) as [i1|] eqn:E1; [|discriminate]. destruct (scaledMP (snd k1)) as [e1|] eqn:E2; [|discriminate]. destruct (scaledMP (fst k2)) as [i2|] eqn:E3; [|discriminate]. destruct (scaledMP (snd k2)) as [e2|] eqn:E4; [|discriminate].
  destruct (scaledMP_ok _ _ (9 / 5 * a + 32) (9 / 5 * c + 32) E1) as (v1 & F1 & G1). destruct (scaledMP_ok _ _ (9 / 5 * a + 32) (9 / 5 * c + 32) E2) as (v2 & F2 & G2).
  destruct (scaledMP_ok _ _ (9 / 5 * a + 32) (9 / 5 * c + 32) E3) as (v3 & F3 & G3). destruct (scaledMP_ok _ _ (9 / 5 * a + 32) (9 / 5 * c + 32) E4) as (v4 & F4 & G4).
  rewrite (mpFun_eq _ _ _ _ _ F1 F2) in *. rewrite (mpFun_eq _ _ _ _ _ F3 F4). cbn [p_in p_cop p_out] in *. clear F1 F2 F3 F4 E1 E2 E3 E4.
  assert (HX : Rabs (512 * (9 / 5 * a + 32) - IZR (256 * (40 + 105))) <= IZR (256 * (105 - 40))) by (apply Rabs_le; rewrite !mult_IZR, plus_IZR, minus_IZR; lra).
  assert (HZ : Rabs (512 * (9 / 5 * c + 32) - IZR (256 * (32 + 135))) <= IZR (256 * (135 - 32))) by (apply Rabs_le; rewrite !mult_IZR, plus_IZR, minus_IZR; lra).
  pose proof (allBox_ok _ _ (fun x z a0 d X Z HT HX0 HZ0 => moreTest_ok zbound zbound_ok i1 e1 i2 e2 0 x z a0 d X Z HT HX0 HZ0) _ _ _ _ _ _ _ HM HX HZ) as HR. cbv beta in HR. rewrite <- G1, <- G2, <- G3, <- G4 in HR. clear HM HX HZ G1 G2 G3 G4.
  assert (0 < v1) by lra. specialize (HR ltac:(lra) ltac:(lra)).
  assert (v1 * v2 < v3 * v4); [|lra]. apply Rmult_lt_reg_l with (1000000000000 * 134217728 * (1000000000000 * 134217728)); lra.
Qed.
Lemma C110_larger_fact : forall m1 m2 s1 s2 k1 k2, sizeOfMP m1 = Some s1 -> sizeOfMP m2 = Some s2 -> (s1 < s2)%Z -> mpMapOf m1 = Some k1 -> mpMapOf m2 = Some k2 ->
  forall a c : R, 40 <= 9 / 5 * a + 32 <= 105 -> 0 <= c <= 515 / 9 -> p_out (mpFun k1 a c) < p_out (mpFun k2 a c).
Proof.
  intros m1 m2 s1 s2 k1 k2 Z1 Z2 HL K1 K2 a c HA HC. 
  assert (HM : moreMP k1 k2 = true). { clear HA HC a c. destruct m1; try discriminate Z1; destruct m2; try discriminate Z2; injection Z1 as <-; injection Z2 as <-; try (exfalso; clear - HL; lia); injection K1 as <-; injection K2 as <-; vm_compute; reflexivity. }
  destruct (mp_data m1 k1 K1) as (lo & mx & D1 & _ & D2 & LO & _ & _ & _ & _ & D10 & _). apply IZR_le in D10. apply IZR_le in LO.
  destruct (C110_positive_fact m1 k1 K1 a c) as (Q1 & Q2 & _); try lra; try (rewrite D2, lvalF; lra); try (rewrite D1, lvalF; lra).
  apply moreMP_pos; auto.
Qed.
Lemma C110_example_fact : forall junk (w : hpwh R), exists w' h q, initExternal (xpresetOf X_ColmacCxA_20_MP) (fun _ => mpFun mpColmacCxA_20) junk w = (Ok tt, w') /\ In h (w_hs w') /\ getPerformance w' h 10 40 = Ok q /\ 0 < p_out q.
Proof.
  intros junk w. destruct (C105_accepts_fact X_ColmacCxA_20_MP (fun _ => mpFun mpColmacCxA_20) junk w) as (w' & E). destruct (C105_result_fact _ _ _ _ _ E) as (_ & _ & _ & _ & _ & _ & _ & _ & _ & _ & n & h & HN & _ & _ & HT & _). apply nth_error_In in HN.
  destruct (made_comp _ _ _ (preset_made _ _ _ _ _ E) h HN HT) as (bk & HX). destruct (xc_range _ _ _ _ HX) as (R1 & R2 & _). pose proof (xc_maxSet _ _ _ _ HX) as R3.
  destruct (C110_delivers_fact X_ColmacCxA_20_MP mpColmacCxA_20 junk w w' eq_refl E h w' 10 40 HN HT) as (q & Q1 & _ & Q2).
  - rewrite R1, R2. replace (xp_minT (xpresetOf X_ColmacCxA_20_MP)) with (FtoC (Lit 40 1)) by reflexivity. replace (xp_maxT (xpresetOf X_ColmacCxA_20_MP)) with (Some (FtoC (Lit 105 1))) by reflexivity. unfold odef. rewrite !lvalF. lra.
  - rewrite R3. replace (xp_maxSet (xpresetOf X_ColmacCxA_20_MP)) with (FtoC (Lit 160 1)) by reflexivity. rewrite lvalF. lra.
  - exists w', h, q. auto.
Qed.
Lemma C110_larger_example_fact : p_out (mpFun mpColmacCxA_10 10 10) < p_out (mpFun mpColmacCxA_15 10 10).
Proof. apply (C110_larger_fact X_ColmacCxA_10_MP X_ColmacCxA_15_MP 10 15); try reflexivity; lra. Qed.
