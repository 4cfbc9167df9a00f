(** Proofs of the theorems stated in PropsSPMaps.v: Properties of the performance maps of the Colmac and Nyle single-pass presets *)

From Coq Require Import ZArith QArith Qreals String List Bool Reals Lra Lia.
From Verif Require Import Num FNum Base Units Utils Types TankM Logic HeatSrc Step Setters Config Perf Rating Fitter DataModel Init Legacy ExtPreset ExtTable ExtMaps Spec SpecState SpecDist SpecEnergy SpecStep SpecExt SpecExtPreset SpecSPMap.
From Verif Require Import RList FrameProofs SeqProofs EnergyFacts LegacyFacts RatingFacts ExtPresetsFacts Example.
Import ListNotations.
Local Open Scope R_scope.
(** ** A lower bound of the polynomial on a box, from its expansion about the centre *)
Record cubic (A : Type) : Type := mkcubic { q0 : A; q1 : A; q2 : A; q3 : A; q4 : A; q5 : A; q6 : A; q7 : A; q8 : A; q9 : A; q10 : A }.
Arguments mkcubic {A}. Arguments q0 {A}. Arguments q1 {A}. Arguments q2 {A}. Arguments q3 {A}. Arguments q4 {A}. Arguments q5 {A}. Arguments q6 {A}. Arguments q7 {A}. Arguments q8 {A}. Arguments q9 {A}. Arguments q10 {A}.
Definition rcub (c : cubic R) (x y z : R) : R :=
  q0 c + q1 c * x + q2 c * y + q3 c * z + q4 c * x * x + q5 c * y * y + q6 c * z * z + q7 c * x * y + q8 c * x * z + q9 c * y * z + q10 c * x * y * z.
Definition zbound (c : cubic Z) (x y z a b d : Z) : Z :=
  (q0 c + q1 c * x + q2 c * y + q3 c * z + q4 c * x * x + q5 c * y * y + q6 c * z * z + q7 c * x * y + q8 c * x * z + q9 c * y * z + q10 c * x * y * z
   - Z.abs (q1 c + 2 * q4 c * x + q7 c * y + q8 c * z + q10 c * y * z) * a
   - Z.abs (q2 c + 2 * q5 c * y + q7 c * x + q9 c * z + q10 c * x * z) * b
   - Z.abs (q3 c + 2 * q6 c * z + q8 c * x + q9 c * y + q10 c * x * y) * d
   - Z.abs (q4 c) * a * a - Z.abs (q5 c) * b * b - Z.abs (q6 c) * d * d
   - Z.abs (q7 c + q10 c * z) * a * b - Z.abs (q8 c + q10 c * y) * a * d - Z.abs (q9 c + q10 c * x) * b * d - Z.abs (q10 c) * a * b * d)%Z.
Definition icub (c : cubic Z) : cubic R := mkcubic (IZR (q0 c)) (IZR (q1 c)) (IZR (q2 c)) (IZR (q3 c)) (IZR (q4 c)) (IZR (q5 c)) (IZR (q6 c)) (IZR (q7 c)) (IZR (q8 c)) (IZR (q9 c)) (IZR (q10 c)).
Lemma term1 g u a : Rabs u <= a -> - (Rabs g * a) <= g * u.
Proof. intros H. pose proof (Rabs_pos g). pose proof (Rle_abs (- (g * u))) as H1. rewrite Rabs_Ropp, Rabs_mult in H1. nra. Qed.
Lemma term2 g u v a b : Rabs u <= a -> Rabs v <= b -> - (Rabs g * a * b) <= g * (u * v).
Proof. intros H1 H2. pose proof (Rabs_pos u). pose proof (Rabs_pos v). replace (Rabs g * a * b) with (Rabs g * (a * b)) by ring. apply term1. rewrite Rabs_mult. nra. Qed.
Lemma term3 g u v w a b d : Rabs u <= a -> Rabs v <= b -> Rabs w <= d -> - (Rabs g * a * b * d) <= g * (u * v * w).
Proof. intros H1 H2 H3. pose proof (Rabs_pos u). pose proof (Rabs_pos v). pose proof (Rabs_pos w). replace (Rabs g * a * b * d) with (Rabs g * (a * b * d)) by ring. apply term1. rewrite !Rabs_mult. assert (Rabs u * Rabs v <= a * b) by nra. assert (0 <= Rabs u * Rabs v) by nra. nra. Qed.
Lemma zbound_ok c x y z a b d X Y Z : Rabs (X - IZR x) <= IZR a -> Rabs (Y - IZR y) <= IZR b -> Rabs (Z - IZR z) <= IZR d ->
  IZR (zbound c x y z a b d) <= rcub (icub c) X Y Z.
Proof.
  intros HX HY HZ. unfold zbound. rewrite !minus_IZR, !mult_IZR, !abs_IZR, !plus_IZR, !mult_IZR. unfold rcub, icub. cbn [q0 q1 q2 q3 q4 q5 q6 q7 q8 q9 q10].
  set (u := X - IZR x) in *. set (v := Y - IZR y) in *. set (t := Z - IZR z) in *.
  replace X with (IZR x + u) by (unfold u; ring). replace Y with (IZR y + v) by (unfold v; ring). replace Z with (IZR z + t) by (unfold t; ring). clearbody u v t.
  destruct c as [c0 c1 c2 c3 c4 c5 c6 c7 c8 c9 c10]. cbn [q0 q1 q2 q3 q4 q5 q6 q7 q8 q9 q10].
  generalize dependent (IZR x). intros x'. generalize dependent (IZR y). intros y'. generalize dependent (IZR z). intros z'.
  generalize dependent (IZR a). intros a' HX. generalize dependent (IZR b). intros b' HY. generalize dependent (IZR d). intros d' HZ.
  generalize (IZR c0) (IZR c1) (IZR c2) (IZR c3) (IZR c4) (IZR c5) (IZR c6) (IZR c7) (IZR c8) (IZR c9) (IZR c10). intros k0 k1 k2 k3 k4 k5 k6 k7 k8 k9 k10.
  pose proof (term1 (k1 + 2 * k4 * x' + k7 * y' + k8 * z' + k10 * y' * z') u a' HX) as T1. pose proof (term1 (k2 + 2 * k5 * y' + k7 * x' + k9 * z' + k10 * x' * z') v b' HY) as T2. pose proof (term1 (k3 + 2 * k6 * z' + k8 * x' + k9 * y' + k10 * x' * y') t d' HZ) as T3.
  pose proof (term2 k4 u u a' a' HX HX) as T4. pose proof (term2 k5 v v b' b' HY HY) as T5. pose proof (term2 k6 t t d' d' HZ HZ) as T6.
  pose proof (term2 (k7 + k10 * z') u v a' b' HX HY) as T7. pose proof (term2 (k8 + k10 * y') u t a' d' HX HZ) as T8. pose proof (term2 (k9 + k10 * x') v t b' d' HY HZ) as T9. pose proof (term3 k10 u v t a' b' d' HX HY HZ) as T10.
  match goal with |- ?l <= ?r => apply Rle_trans with (l + ((k1 + 2 * k4 * x' + k7 * y' + k8 * z' + k10 * y' * z') * u + Rabs (k1 + 2 * k4 * x' + k7 * y' + k8 * z' + k10 * y' * z') * a' + ((k2 + 2 * k5 * y' + k7 * x' + k9 * z' + k10 * x' * z') * v + Rabs (k2 + 2 * k5 * y' + k7 * x' + k9 * z' + k10 * x' * z') * b')
     + ((k3 + 2 * k6 * z' + k8 * x' + k9 * y' + k10 * x' * y') * t + Rabs (k3 + 2 * k6 * z' + k8 * x' + k9 * y' + k10 * x' * y') * d') + (k4 * (u * u) + Rabs k4 * a' * a') + (k5 * (v * v) + Rabs k5 * b' * b') + (k6 * (t * t) + Rabs k6 * d' * d')
     + ((k7 + k10 * z') * (u * v) + Rabs (k7 + k10 * z') * a' * b') + ((k8 + k10 * y') * (u * t) + Rabs (k8 + k10 * y') * a' * d') + ((k9 + k10 * x') * (v * t) + Rabs (k9 + k10 * x') * b' * d') + (k10 * (u * v * t) + Rabs k10 * a' * b' * d'))) end; [lra|apply Req_le; ring].
Qed.
(** the bound is positive on the box or on all parts of it *)
Fixpoint posBox (bnd : Z -> Z -> Z -> Z -> Z -> Z -> Z) (n : nat) (x y z a b d : Z) : bool :=
  if (0 <? bnd x y z a b d)%Z then true else
  match n with
  | O => false
  | S n => let e := Z.div2 a in let f := Z.div2 b in let g := Z.div2 d in
      Z.even a && Z.even b && Z.even d &&
      forallb (fun s => forallb (fun t => forallb (fun r => posBox bnd n (x + s) (y + t) (z + r) e f g) [- g; g]) [- f; f]) [- e; e]
  end%Z.
Lemma rabs_inv x a : Rabs x <= a -> - a <= x <= a.
Proof. unfold Rabs. destruct (Rcase_abs x); lra. Qed.
Lemma half_box X x a : Z.even a = true -> Rabs (X - IZR x) <= IZR a -> exists s, In s [(- Z.div2 a)%Z; Z.div2 a] /\ Rabs (X - IZR (x + s)) <= IZR (Z.div2 a).
Proof.
  intros HE HX. assert (EA : a = (2 * Z.div2 a)%Z) by (rewrite (Z.div2_odd a) at 1; rewrite <- Z.negb_even, HE; cbn; lia).
  rewrite EA in HX. rewrite mult_IZR in HX. generalize dependent (Z.div2 a). intros e HX EA. apply rabs_inv in HX.
  destruct (Rle_dec X (IZR x)); [exists (- e)%Z|exists e]; (split; [cbn; auto|]); rewrite plus_IZR, ?opp_IZR; apply Rabs_le; lra.
Qed.
Lemma posBox_ok bnd (F : R -> R -> R -> R) : (forall x y z a b d X Y Z, Rabs (X - IZR x) <= IZR a -> Rabs (Y - IZR y) <= IZR b -> Rabs (Z - IZR z) <= IZR d -> IZR (bnd x y z a b d) <= F X Y Z) ->
  forall n x y z a b d X Y Z, posBox bnd n x y z a b d = true -> Rabs (X - IZR x) <= IZR a -> Rabs (Y - IZR y) <= IZR b -> Rabs (Z - IZR z) <= IZR d -> 0 < F X Y Z.
Proof.
  intros HF. induction n as [|n IH]; intros x y z a b d X Y Z HB HX HY HZ; pose proof (HF x y z a b d X Y Z HX HY HZ) as HL; cbn [posBox] in HB; destruct (0 <? bnd x y z a b d)%Z eqn:E.
  - apply Z.ltb_lt, IZR_lt in E. lra.
  - discriminate.
  - apply Z.ltb_lt, IZR_lt in E. lra.
  - clear E HL. apply andb_prop in HB. destruct HB as (HB & HA). apply andb_prop in HB. destruct HB as (HB & H3). apply andb_prop in HB. destruct HB as (H1 & H2).
    destruct (half_box X x a H1 HX) as (s & IS & XS). destruct (half_box Y y b H2 HY) as (t & IT & XT). destruct (half_box Z z d H3 HZ) as (r & IR & XR).
    rewrite forallb_forall in HA. pose proof (HA s IS) as HA1. cbv beta in HA1. rewrite forallb_forall in HA1. pose proof (HA1 t IT) as HA2. cbv beta in HA2. rewrite forallb_forall in HA2. pose proof (HA2 r IR) as HA3. cbv beta in HA3.
    exact (IH _ _ _ _ _ _ X Y Z HA3 XS XT XR).
Qed.

(** ** The maps: coefficients in units of 1e-12, temperatures of 1/512 F *)
Definition scaleLit (x : lnum) : option Z :=
  match x with Lit n d => if ((0 <? d) && (1000000000000 mod d =? 0))%Z then Some (n * (1000000000000 / d))%Z else None | _ => None end.
Lemma scaleLit_ok x z : scaleLit x = Some z -> lval (T:=R) x * 1000000000000 = IZR z.
Proof.
  destruct x as [n d| | | | | | | |]; cbn [scaleLit]; try discriminate. destruct (0 <? d)%Z eqn:E1; [|discriminate]. destruct (1000000000000 mod d =? 0)%Z eqn:E2; [|discriminate]. cbn [andb]. intros E. injection E as <-.
  apply Z.ltb_lt in E1. apply Z.eqb_eq in E2. assert (HD : 0 < IZR d) by (apply IZR_lt; auto).
  assert (EQ : (1000000000000 = d * (1000000000000 / d))%Z) by (apply Z.div_exact; lia).
  assert (EL : lval (T:=R) (Lit n d) = IZR n / IZR d). { cbn [lval]. destruct (d =? 1)%Z eqn:E3; [apply Z.eqb_eq in E3; subst d; num_simpl; field|]. unfold dec. rewrite ?E3. num_simpl. reflexivity. }
  rewrite EL, mult_IZR. replace 1000000000000 with (IZR d * IZR (1000000000000 / d)); [field; lra|]. rewrite <- mult_IZR, <- EQ. reflexivity.
Qed.
Definition scaled (l : list lnum) : option (cubic Z) :=
  match map scaleLit l with
  | [Some c0; Some c1; Some c2; Some c3; Some c4; Some c5; Some c6; Some c7; Some c8; Some c9; Some c10] =>
      Some (mkcubic (c0 * 134217728) (c1 * 262144) (c2 * 262144) (c3 * 262144) (c4 * 512) (c5 * 512) (c6 * 512) (c7 * 512) (c8 * 512) (c9 * 512) c10)%Z
  | _ => None
  end.
Lemma scaled_ok l c x y z : scaled l = Some c -> exists v, regressedMethod (map (lval (T:=R)) l) x y z = Ok v /\ v * (1000000000000 * 134217728) = rcub (icub c) (512 * x) (512 * y) (512 * z).
Proof.
  unfold scaled. intros E. destruct l as [|l0 [|l1 [|l2 [|l3 [|l4 [|l5 [|l6 [|l7 [|l8 [|l9 [|l10 [|l11 l]]]]]]]]]]]]; cbn [map] in E;
    repeat match type of E with context [scaleLit ?x] => destruct (scaleLit x) eqn:?; cbv beta iota in E; try discriminate E end; try discriminate E.
  injection E as <-. cbn [map regressedMethod]. num_simpl. eexists. split; [reflexivity|]. unfold rcub, icub. cbn [q0 q1 q2 q3 q4 q5 q6 q7 q8 q9 q10]. rewrite !mult_IZR.
  repeat match goal with H : scaleLit _ = Some _ |- _ => apply scaleLit_ok in H; rewrite <- H; clear H end. ring.
Qed.
Definition boxOK (l : list lnum) (a0 a1 s0 s1 c0 c1 : Z) : bool :=
  match scaled l with Some c => posBox (zbound c) 3 (256 * (a0 + a1)) (256 * (s0 + s1)) (256 * (c0 + c1)) (256 * (a1 - a0)) (256 * (s1 - s0)) (256 * (c1 - c0)) | None => false end.
Lemma box_pos l a0 a1 s0 s1 c0 c1 x y z : boxOK l a0 a1 s0 s1 c0 c1 = true -> IZR a0 <= x <= IZR a1 -> IZR s0 <= y <= IZR s1 -> IZR c0 <= z <= IZR c1 ->
  exists v, regressedMethod (map (lval (T:=R)) l) x y z = Ok v /\ 0 < v.
Proof.
  unfold boxOK. intros HB HX HY HZ. destruct (scaled l) as [c|] eqn:E; [|discriminate]. destruct (scaled_ok l c x y z E) as (v & E1 & E2). exists v. split; [exact E1|].
  assert (0 < rcub (icub c) (512 * x) (512 * y) (512 * z)); [|lra]. eapply (posBox_ok (zbound c) (rcub (icub c)) (zbound_ok c)); [exact HB| | |]; apply Rabs_le; rewrite !mult_IZR, plus_IZR, minus_IZR; lra.
Qed.
(** ** The presets *)
Lemma sp_data m k : spMapOf m = Some k -> let p := xpresetOf m in exists lo mx, xp_minT p = FtoC (Lit lo 1) /\ xp_maxSet p = FtoC (Lit mx 1) /\ (100 <= mx)%Z /\
  xp_setpoint p = FtoC (Lit 135 1) /\ xp_setFixed p = false /\ xp_multi p = false /\ xp_resDefrost p = None /\ xp_shx p = None /\ xp_nodes p = 96%nat /\ (135 <= mx)%Z /\ boxOK (fst k) lo 120 100 mx 32 mx = true /\ boxOK (snd k) lo 120 100 mx 32 mx = true.
Proof.
  intros E. destruct m; try discriminate E; injection E as <-; cbv zeta; eexists _, _;
    (split; [reflexivity|]); (split; [reflexivity|]); (split; [lia|]); (split; [reflexivity|]); (split; [reflexivity|]); (split; [reflexivity|]); (split; [reflexivity|]); (split; [reflexivity|]); (split; [reflexivity|]); (split; [lia|]); split; vm_compute; reflexivity.
Qed.
Lemma lvalF n : lval (T:=R) (FtoC (Lit n 1)) = (IZR n - 32) * (5 / 9).
Proof. cbn [lval]. unfold F_TO_C, offsetF, FperC, dec; num_simpl. cbn [Z.eqb Pos.eqb]. lra. Qed.
Lemma c_to_f x : C_TO_F (T:=R) x = 9 / 5 * x + 32.
Proof. unfold C_TO_F, offsetF, FperC, dec; num_simpl. cbn [Z.eqb Pos.eqb]. lra. Qed.

Lemma C109_positive_fact : forall m k, spMapOf m = Some k -> forall sp a c : R, 100 <= 9 / 5 * sp + 32 -> sp <= lval (xp_maxSet (xpresetOf m)) -> lval (xp_minT (xpresetOf m)) <= a -> 9 / 5 * a + 32 <= 120 ->
  0 <= c <= lval (xp_maxSet (xpresetOf m)) -> 0 < p_in (spFun k sp a c) /\ 0 < p_cop (spFun k sp a c) /\ p_out (spFun k sp a c) = p_cop (spFun k sp a c) * p_in (spFun k sp a c).
Proof.
  intros m k HK sp a c H1 H2 H3 H4 H5. destruct (sp_data m k HK) as (lo & mx & D1 & D2 & _ & _ & _ & _ & _ & _ & _ & _ & B1 & B2). rewrite D1 in H3. rewrite D2 in H2, H5. rewrite lvalF in H2, H3, H5.
  destruct (box_pos _ _ _ _ _ _ _ (9 / 5 * a + 32) (9 / 5 * sp + 32) (9 / 5 * c + 32) B1) as (i & EI & HI); [lra|lra|lra|].
  destruct (box_pos _ _ _ _ _ _ _ (9 / 5 * a + 32) (9 / 5 * sp + 32) (9 / 5 * c + 32) B2) as (e & EE & HE); [lra|lra|lra|].
  unfold spFun, polySP. cbn [pp_in pp_cop]. rewrite !c_to_f. num_simpl. rewrite Rplus_0_r. rewrite EI, EE. cbn [obind p_in p_cop p_out]. unfold KW_TO_W. num_simpl. splits; try nra.
Qed.

(** ** Larger models deliver more *)
Definition zneg (c : cubic Z) : cubic Z := (mkcubic (- q0 c) (- q1 c) (- q2 c) (- q3 c) (- q4 c) (- q5 c) (- q6 c) (- q7 c) (- q8 c) (- q9 c) (- q10 c))%Z.
Lemma zneg_ok c x y z : rcub (icub (zneg c)) x y z = - rcub (icub c) x y z.
Proof. unfold rcub, icub, zneg. cbn [q0 q1 q2 q3 q4 q5 q6 q7 q8 q9 q10]. rewrite !opp_IZR. ring. Qed.
(** a test of boxes, with the second coordinate fixed, holds on the box or on all parts of it *)
Fixpoint allBox (tst : Z -> Z -> Z -> Z -> bool) (n : nat) (x z a d : Z) : bool :=
  if tst x z a d then true else
  match n with
  | O => false
  | S n => let e := Z.div2 a in let g := Z.div2 d in
      Z.even a && Z.even d && forallb (fun s => forallb (fun r => allBox tst n (x + s) (z + r) e g) [- g; g]) [- e; e]
  end%Z.
Lemma allBox_ok tst (P : R -> R -> Prop) : (forall x z a d X Z, tst x z a d = true -> Rabs (X - IZR x) <= IZR a -> Rabs (Z - IZR z) <= IZR d -> P X Z) ->
  forall n x z a d X Z, allBox tst n x z a d = true -> Rabs (X - IZR x) <= IZR a -> Rabs (Z - IZR z) <= IZR d -> P X Z.
Proof.
  intros HF. induction n as [|n IH]; intros x z a d X Z HB HX HZ; cbn [allBox] in HB; destruct (tst x z a d) eqn:E; try (exact (HF _ _ _ _ _ _ E HX HZ)); [discriminate|].
  clear E. apply andb_prop in HB. destruct HB as (HB & HA). apply andb_prop in HB. destruct HB as (H1 & H3).
  destruct (half_box X x a H1 HX) as (s & IS & XS). destruct (half_box Z z d H3 HZ) as (r & IR & XR).
  rewrite forallb_forall in HA. pose proof (HA s IS) as HA1. cbv beta in HA1. rewrite forallb_forall in HA1. pose proof (HA1 r IR) as HA3. cbv beta in HA3.
  exact (IH _ _ _ _ X Z HA3 XS XR).
Qed.
Definition moreThan (li le ui ue : Z) : bool := ((0 <? li) && (0 <? le) && (ui * ue <? li * le))%Z.
Lemma moreThan_ok li le ui ue f1 g1 f2 g2 : moreThan li le ui ue = true -> IZR li <= f2 -> IZR le <= g2 -> IZR ui <= - f1 -> IZR ue <= - g1 -> 0 < f1 -> 0 < g1 -> f1 * g1 < f2 * g2.
Proof.
  intros HT B1 B2 B3 B4 P1 P2. unfold moreThan in HT. apply andb_prop in HT. destruct HT as (HT & T3). apply andb_prop in HT. destruct HT as (T1 & T2). apply Z.ltb_lt in T1. apply Z.ltb_lt in T2. apply Z.ltb_lt in T3. apply IZR_lt in T1. apply IZR_lt in T2. apply IZR_lt in T3. rewrite !mult_IZR in T3.
  set (l1 := IZR li) in *. set (l2 := IZR le) in *. set (u1 := IZR ui) in *. set (u2 := IZR ue) in *. clearbody l1 l2 u1 u2.
  assert (f1 * g1 <= u1 * u2) by nra. assert (l1 * l2 <= f2 * g2) by nra. lra.
Qed.
Definition moreTest (bnd : cubic Z -> Z -> Z -> Z -> Z -> Z -> Z -> Z) (i1 e1 i2 e2 : cubic Z) (y x z a d : Z) : bool :=
  moreThan (bnd i2 x y z a 0%Z d) (bnd e2 x y z a 0%Z d) (bnd (zneg i1) x y z a 0%Z d) (bnd (zneg e1) x y z a 0%Z d).
Lemma moreTest_ok bnd : (forall c x y z a b d X Y Z, Rabs (X - IZR x) <= IZR a -> Rabs (Y - IZR y) <= IZR b -> Rabs (Z - IZR z) <= IZR d -> IZR (bnd c x y z a b d) <= rcub (icub c) X Y Z) ->
  forall i1 e1 i2 e2 y x z a d X Z, moreTest bnd i1 e1 i2 e2 y x z a d = true -> Rabs (X - IZR x) <= IZR a -> Rabs (Z - IZR z) <= IZR d ->
  0 < rcub (icub i1) X (IZR y) Z -> 0 < rcub (icub e1) X (IZR y) Z -> rcub (icub i1) X (IZR y) Z * rcub (icub e1) X (IZR y) Z < rcub (icub i2) X (IZR y) Z * rcub (icub e2) X (IZR y) Z.
Proof.
  intros HB i1 e1 i2 e2 y x z a d X Z HT HX HZ. assert (HY : Rabs (IZR y - IZR y) <= IZR 0) by (rewrite Rminus_diag_eq by reflexivity; rewrite Rabs_R0; lra).
  pose proof (HB i2 x y z a 0%Z d X (IZR y) Z HX HY HZ) as B1. pose proof (HB e2 x y z a 0%Z d X (IZR y) Z HX HY HZ) as B2. pose proof (HB (zneg i1) x y z a 0%Z d X (IZR y) Z HX HY HZ) as B3. pose proof (HB (zneg e1) x y z a 0%Z d X (IZR y) Z HX HY HZ) as B4.
  rewrite zneg_ok in B3, B4. unfold moreTest in HT.
  generalize dependent (rcub (icub i1) X (IZR y) Z). generalize dependent (rcub (icub e1) X (IZR y) Z). generalize dependent (rcub (icub i2) X (IZR y) Z). generalize dependent (rcub (icub e2) X (IZR y) Z). intros. eapply moreThan_ok; eassumption.
Qed.
Definition moreOK (k1 k2 : spMap) : bool :=
  match scaled (fst k1), scaled (snd k1), scaled (fst k2), scaled (snd k2) with
  | Some i1, Some e1, Some i2, Some e2 => allBox (moreTest zbound i1 e1 i2 e2 (512 * 135)) 8 (256 * (40 + 120)) (256 * (32 + 135)) (256 * (120 - 40)) (256 * (135 - 32))
  | _, _, _, _ => false
  end.
Lemma more_pos k1 k2 a c : moreOK k1 k2 = true -> 40 <= 9 / 5 * a + 32 <= 120 -> 0 <= c <= 515 / 9 -> 0 < p_in (spFun k1 (515 / 9) a c) -> 0 < p_cop (spFun k1 (515 / 9) a c) ->
  p_out (spFun k1 (515 / 9) a c) < p_out (spFun k2 (515 / 9) a c).
Proof.
  unfold moreOK. intros HM HA HC P1 P2. destruct (scaled (fst k1)) as [i1|] eqn:E1; [|discriminate]. destruct (scaled (snd k1)) as [e1|] eqn:E2; [|discriminate]. destruct (scaled (fst k2)) as [i2|] eqn:E3; [|discriminate]. destruct (scaled (snd k2)) as [e2|] eqn:E4; [|discriminate].
  destruct (scaled_ok _ _ (9 / 5 * a + 32) 135 (9 / 5 * c + 32) E1) as (v1 & F1 & G1). destruct (scaled_ok _ _ (9 / 5 * a + 32) 135 (9 / 5 * c + 32) E2) as (v2 & F2 & G2).
  destruct (scaled_ok _ _ (9 / 5 * a + 32) 135 (9 / 5 * c + 32) E3) as (v3 & F3 & G3). destruct (scaled_ok _ _ (9 / 5 * a + 32) 135 (9 / 5 * c + 32) E4) as (v4 & F4 & G4).
  assert (SP : forall (k : spMap) (i e : R), regressedMethod (map (lval (T:=R)) (fst k)) (9 / 5 * a + 32) 135 (9 / 5 * c + 32) = Ok i -> regressedMethod (map (lval (T:=R)) (snd k)) (9 / 5 * a + 32) 135 (9 / 5 * c + 32) = Ok e -> spFun k (515 / 9) a c = mkperf (1000 * i) (e * (1000 * i)) e).
  { intros k i e EI EE. unfold spFun, polySP. cbn [pp_in pp_cop]. rewrite !c_to_f. num_simpl. rewrite Rplus_0_r. replace (9 / 5 * (515 / 9) + 32) with 135 by lra. rewrite EI, EE. cbn [obind]. unfold KW_TO_W. num_simpl. reflexivity. }
  rewrite (SP _ _ _ F1 F2) in *. rewrite (SP _ _ _ F3 F4). cbn [p_in p_cop p_out] in *. clear SP F1 F2 F3 F4 E1 E2 E3 E4.
  assert (EY : 512 * 135 = IZR (512 * 135)) by (rewrite mult_IZR; reflexivity). rewrite EY in G1, G2, G3, G4. clear EY.
  assert (HX : Rabs (512 * (9 / 5 * a + 32) - IZR (256 * (40 + 120))) <= IZR (256 * (120 - 40))) by (apply Rabs_le; rewrite !mult_IZR, plus_IZR, minus_IZR; lra).
  assert (HZ : Rabs (512 * (9 / 5 * c + 32) - IZR (256 * (32 + 135))) <= IZR (256 * (135 - 32))) by (apply Rabs_le; rewrite !mult_IZR, plus_IZR, minus_IZR; lra).
  pose proof (allBox_ok _ _ (fun x z a0 d X Z HT HX0 HZ0 => moreTest_ok zbound zbound_ok i1 e1 i2 e2 (512 * 135) x z a0 d X Z HT HX0 HZ0) _ _ _ _ _ _ _ HM HX HZ) as HR. cbv beta in HR. rewrite <- G1, <- G2, <- G3, <- G4 in HR. clear HM HX HZ G1 G2 G3 G4.
  assert (0 < v1) by lra. specialize (HR ltac:(lra) ltac:(lra)).
  assert (v1 * v2 < v3 * v4); [|lra]. apply Rmult_lt_reg_l with (1000000000000 * 134217728 * (1000000000000 * 134217728)); lra.
Qed.
Lemma C109_larger_fact : forall m1 m2 mk s1 s2 k1 k2, sizeOf m1 = Some (mk, s1) -> sizeOf m2 = Some (mk, s2) -> (s1 < s2)%Z -> spMapOf m1 = Some k1 -> spMapOf m2 = Some k2 ->
  forall a c : R, 40 <= 9 / 5 * a + 32 <= 120 -> 0 <= c <= 515 / 9 -> p_out (spFun k1 (515 / 9) a c) < p_out (spFun k2 (515 / 9) a c).
Proof.
  intros m1 m2 mk s1 s2 k1 k2 Z1 Z2 HL K1 K2 a c HA HC. 
  assert (HM : moreOK k1 k2 = true). { clear HA HC a c. destruct m1; try discriminate Z1; destruct m2; try discriminate Z2; injection Z1 as <- <-; try discriminate Z2; injection Z2 as <-; try (exfalso; clear - HL; lia); injection K1 as <-; injection K2 as <-; vm_compute; reflexivity. }
  destruct (sp_data m1 k1 K1) as (lo & mx & D1 & D2 & _ & _ & _ & _ & _ & _ & _ & D10 & _). apply IZR_le in D10.
  assert (LO : IZR lo <= 40). { clear - K1 D1. apply IZR_le. destruct m1; try discriminate K1; injection D1 as <-; lia. }
  destruct (C109_positive_fact m1 k1 K1 (515 / 9) a c) as (Q1 & Q2 & _); try lra; try (rewrite D2, lvalF; lra); try (rewrite D1, lvalF; lra).
  apply more_pos; auto.
Qed.
Lemma C109_larger_example_fact : p_out (spFun mapNyleC60A (515 / 9) 10 10) < p_out (spFun mapNyleC90A (515 / 9) 10 10) < p_out (spFun mapNyleC250A (515 / 9) 10 10).
Proof. split; [apply (C109_larger_fact X_NyleC60A_SP X_NyleC90A_C_SP Nyle 60 90)|apply (C109_larger_fact X_NyleC90A_SP X_NyleC250A_C_SP Nyle 90 250)]; try reflexivity; lra. Qed.

(** setpoints a preset accepts *)
Lemma sp_accepts m k ev junk (w w' : hpwh R) sp : spMapOf m = Some k -> initExternal (xpresetOf m) ev junk w = (Ok tt, w') -> sp <= 135 * (5 / 9) - 32 * (5 / 9) -> fst (setSetpointC sp w') = Ok tt /\ w_setpoint (snd (setSetpointC sp w')) = sp.
Proof.
  intros HK E HS. destruct (sp_data m k HK) as (lo & mx & D1 & D2 & D3 & D4 & D5 & D6 & D7 & D8 & D9 & D10 & _). destruct (C105_result_fact _ _ _ _ _ E) as (_ & _ & _ & _ & _ & _ & _ & _ & _ & _ & n & h & HN & HC & _ & HT & _).
  pose proof (preset_made _ _ _ _ _ E) as HM. clear E. generalize dependent (xpresetOf m). intros p D1 D2 D4 D5 D6 D7 D8 D9 HM. destruct (made_comp _ _ _ HM h (nth_error_In _ _ HN) HT) as (bk & HX).
  pose proof (xc_shx _ _ _ _ HX) as SX. rewrite D8 in SX. unfold triple in SX. injection SX as SX1 SX2 SX3. pose proof (xc_maxSet _ _ _ _ HX) as MX. rewrite D2, lvalF in MX. destruct (xu_sp _ _ _ (xm_unit _ _ _ HM)) as (_ & FX). rewrite D5 in FX. apply IZR_le in D10.
  unfold setSetpointC, setpointPossible, hasCompressor. unfold bind, get, lift. rewrite FX, HC. replace (0 <=? Z.of_nat n)%Z with true by (symmetry; apply Z.leb_le; lia). rewrite Nat2Z.id, HN. cbn [obind]. rewrite SX2, MX. unfold tolT, dec. num_simpl. cbn [Z.eqb Pos.eqb].
  rewrite (proj2 (Rltb_false ((IZR mx - 32) * (5 / 9) - 0 + _) sp)) by lra. rewrite (proj2 (Rltb_false (100 + _) sp)) by lra. cbn [andb negb obind].
  destruct (0 <=? w_lowIx w')%Z; cbn [obind]; [split; reflexivity|]. rewrite andb_false_r. cbn [obind]. split; reflexivity.
Qed.
Lemma C109_low_setpoint_fact : forall m ev junk (w w' : hpwh R), In m [X_NyleC250A_SP; X_NyleC250A_C_SP] -> initExternal (xpresetOf m) ev junk w = (Ok tt, w') ->
  exists k, spMapOf m = Some k /\ fst (setSetpointC (190 / 9) w') = Ok tt /\ w_setpoint (snd (setSetpointC (190 / 9) w')) = 190 / 9 /\
    (forall h, In h (w_hs w') -> h_type h = TCompressor -> h_minT h <= 440 / 9 <= h_maxT h) /\ p_in (spFun k (190 / 9) (440 / 9) 0) < 0.
Proof.
  intros m ev junk w w' HI E. assert (HK : spMapOf m = Some mapNyleC250A) by (cbn [In] in HI; destruct HI as [<-|[<-|[]]]; reflexivity). exists mapNyleC250A. split; [exact HK|].
  destruct (sp_accepts m _ ev junk w w' (190 / 9) HK E) as (A1 & A2); [lra|]. split; [exact A1|]. split; [exact A2|]. split.
  - intros h Hh HT. destruct (sp_data m _ HK) as (lo & mx & D1 & _). pose proof (preset_made _ _ _ _ _ E) as HM. destruct (made_comp _ _ _ HM h Hh HT) as (bk & HX). destruct (xc_range _ _ _ _ HX) as (-> & -> & _).
    assert (EM : xp_maxT (xpresetOf m) = Some (FtoC (Lit 120 1))) by (cbn [In] in HI; destruct HI as [<-|[<-|[]]]; reflexivity). assert (EL : xp_minT (xpresetOf m) = FtoC (Lit 40 1) \/ xp_minT (xpresetOf m) = FtoC (Lit 35 1)) by (cbn [In] in HI; destruct HI as [<-|[<-|[]]]; auto).
    rewrite EM. unfold odef. rewrite lvalF. destruct EL as [-> | ->]; rewrite lvalF; lra.
  - unfold spFun, polySP, mapNyleC250A. cbn [pp_in pp_cop fst snd map lval Z.eqb Pos.eqb regressedMethod obind p_in]. rewrite !c_to_f. unfold dec, KW_TO_W. num_simpl. cbn [Z.eqb Pos.eqb]. lra.
Qed.

Lemma runs_setpoint fuel rows : forall (w : hpwh R) ws wl, SeqProofs.runs fuel rows w ws wl -> - (27315 / 100) < w_setpoint w -> Forall (fun v => w_setpoint v = w_setpoint w) ws.
Proof.
  intros w ws wl HR. induction HR as [w|r rows w w1 ws w' E HR IH]; intros HS; [constructor|]. pose proof (C80_step_fact _ _ _ _ _ E HS) as ES. constructor; [exact ES|]. rewrite <- ES. apply IH. rewrite ES. exact HS.
Qed.
Lemma C109_run_fact : forall m k junk (w w' : hpwh R), spMapOf m = Some k -> initExternal (xpresetOf m) (fun _ => spFun k (515 / 9)) junk w = (Ok tt, w') ->
  forall fuel rows, 54933432 <= INR fuel ->
  (forall r, In r rows -> 0 <= r_draw r /\ r_draw r * 96 / t_volume (w_tank w') <= INR fuel /\ lval (xp_minT (xpresetOf m)) <= r_ext r /\ 9 / 5 * r_ext r + 32 <= 120 /\
    match xp_low (xpresetOf m) with Some (_, a) => lval a < r_ext r | None => True end /\ 0 <= r_amb r <= 515 / 9 /\ 0 <= r_inletT r <= 515 / 9) -> Rsum (map r_draw rows) <> 0 ->
  exists ws wl w2, SeqProofs.runs fuel rows w' ws wl /\ runNSteps fuel rows w' = (Ok tt, w2) /\ w_setpoint w' = 515 / 9 /\ Forall (fun v => within 0 (515 / 9) (t_Ts (w_tank v)) /\ w_setpoint v = 515 / 9) ws /\
    tankHeat (w_tank w2) = tankHeat (w_tank w')
      + CPWATER * DENSITYWATER * (Rsum (map (fun r => r_draw r * r_inletT r) rows) - t_outletT (w_tank w2) * Rsum (map r_draw rows))
      + 3600 * Rsum (map h_eOut (w_hs w2)) - 3600 * w_stbyE w2.
Proof.
  intros m k junk w w' HK E fuel rows HF HR HS. destruct (sp_data m k HK) as (lo & mx & D1 & D2 & D3 & D4 & D5 & D6 & D7 & D8 & D9 & D10 & _). apply IZR_le in D10. pose proof (preset_made _ _ _ _ _ E) as HM.
  assert (ES : w_setpoint w' = 515 / 9) by (destruct (xu_sp _ _ _ (xm_unit _ _ _ HM)) as (-> & _); rewrite D4, lvalF; lra).
  assert (EN : length (t_Ts (w_tank w')) = 96%nat) by (destruct (made_nodes _ _ _ HM) as (-> & _); exact D9).
  assert (EC : forall h, In h (w_hs w') -> h_type h = TCompressor -> h_mlAir h = match xp_low (xpresetOf m) with Some (_, a) => lval a | None => -27315 / 100 end).
  { intros h HI HT. destruct (made_comp _ _ _ HM h HI HT) as (bk & HX). destruct (xc_low _ _ _ _ HX) as (_ & ->). reflexivity. }
  pose proof (C106_single_pass_fact m _ junk w w' E D6 0 fuel rows) as HP. rewrite ES, EN in HP. replace (INR 96) with 96 in HP by (rewrite INR_IZR_INZ; cbn; lra).
  destruct HP as (ws & wl & w2 & P1 & P2 & P3 & P4); auto; try lra.
  - apply INR_lt. rewrite INR_IZR_INZ. cbn. lra.
  - intros r HIr. destruct (HR r HIr) as (G1 & G2 & G3 & G3' & G4 & G5 & G6). split; [auto|]. split; [auto|]. split; [|split; [|split; auto]].
    + intros h HIh HT u c HC. assert (HD : deliversHeat (fun _ => spFun k (515 / 9)) (lval (xp_minT (xpresetOf m))) (440 / 9) (fun c => 0 <= c <= 515 / 9)).
      { intros sp a y HA HY. destruct (C109_positive_fact m k HK (515 / 9) a y) as (Q1 & Q2 & _); try lra; try (rewrite D2, lvalF; lra); auto. }
      destruct (C106_delivers_fact m _ junk w w' E _ _ _ (r_ext r) c u h HD HIh HT) as (q & Eq & _ & Q2); [lra|rewrite D7; lra|rewrite D8; intros y Hy; lra|]. eauto.
    + intros h HIh HT. rewrite (EC h HIh HT). rewrite D1, lvalF in G3. destruct (xp_low (xpresetOf m)) as [[o a]|]; [exact G4|].
      assert (-4 <= IZR lo); [|lra]. clear - HK D1. apply IZR_le. destruct m; try discriminate HK; injection D1 as <-; lia.
  - exists ws, wl, w2. split; [exact P1|]. split; [exact P2|]. split; [exact ES|]. split; [|exact P4]. pose proof (runs_setpoint _ _ _ _ _ P1 ltac:(lra)) as RS. rewrite Forall_forall in P3, RS |- *. intros v Hv. split; [apply P3; auto|]. rewrite (RS v Hv). exact ES.
Qed.
Lemma C109_example_fact : forall junk (w : hpwh R), exists fuel w' w2, initExternal (xpresetOf X_NyleC90A_C_SP) (fun _ => spFun mapNyleC90A (515 / 9)) junk w = (Ok tt, w') /\
  runNSteps fuel (repeat (mkrow 10 3 20 10 0%Z) 60) w' = (Ok tt, w2).
Proof.
  intros junk w. destruct (C105_accepts_fact X_NyleC90A_C_SP (fun _ => spFun mapNyleC90A (515 / 9)) junk w) as (w' & E). exists (Z.to_nat 54933432), w'.
  assert (HF : INR (Z.to_nat 54933432) = 54933432) by (rewrite INR_IZR_INZ, Z2Nat.id by lia; reflexivity).
  destruct (C105_result_fact _ _ _ _ _ E) as (_ & _ & _ & _ & HV & _).
  destruct (C109_run_fact X_NyleC90A_C_SP mapNyleC90A junk w w' eq_refl E (Z.to_nat 54933432) (repeat (mkrow 10 3 20 10 0%Z) 60)) as (ws & wl & w2 & _ & R2 & _).
  - rewrite HF; lra.
  - intros r HI. apply repeat_spec in HI. subst r. cbn [r_inletT r_draw r_amb r_ext]. rewrite HF. split; [lra|]. split; [apply Rmult_le_reg_r with (t_volume (w_tank w')); [lra|]; unfold Rdiv; rewrite Rmult_assoc, Rinv_l by lra; lra|].
    replace (xp_minT (xpresetOf X_NyleC90A_C_SP)) with (FtoC (Lit 35 1)) by reflexivity. replace (xp_low (xpresetOf X_NyleC90A_C_SP)) with (Some (FtoC (Lit 140 1), FtoC (Lit 40 1))) by reflexivity. rewrite !lvalF. splits; lra.
  - unfold Rsum. cbn [repeat map r_draw fold_right]. lra.
  - exists w2. auto.
Qed.
