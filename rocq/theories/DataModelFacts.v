(** Proofs of the theorems stated in PropsDataModel.v: Properties of writing a simulator to the data model and reading it back *)

From Coq Require Import ZArith String List Bool Reals Lra Lia Floats.
From Verif Require Import Num FNum Base Units Utils Types TankM Logic HeatSrc Step Setters Perf DataModel Spec SpecDist.
From Verif Require Import RList FrameProofs SimFrame ControlProofs DistFacts PerfFacts StepEnergy SeqProofs Example.
Import ListNotations.
Local Open Scope R_scope.
(** ** C67: heating logics *)

(** a distribution relative to its top height and its largest weight *)
Definition rel (H M : R) (d : wdist R) : wdist R := map (fun p => (fst p / H, snd p / M)) d.
Definition Rel (d : wdist R) : wdist R := rel (wd_maxHeight d) (wd_maxWeight d) d.

Lemma combine_maps {A B C} (f : A -> B) (g : A -> C) l : combine (map f l) (map g l) = map (fun x => (f x, g x)) l.
Proof. induction l; cbn; congruence. Qed.
Lemma map_nth_seq {A B} (f : A -> B) (l : list A) d : map (fun i => f (nth i l d)) (seq 0 (length l)) = map f l.
Proof.
  apply nth_ext with (d := f d) (d' := f d); [now rewrite !map_length, seq_length|].
  intros n Hn. rewrite map_length, seq_length in Hn.
  rewrite (nth_indep _ (f d) (f (nth 0 l d))) by (now rewrite map_length, seq_length).
  rewrite (map_nth (fun i => f (nth i l d))), seq_nth by auto. cbn. now rewrite map_nth.
Qed.
Lemma wdTo_Rel d : wd_make (fst (wdTo d)) (snd (wdTo d)) = Rel d.
Proof.
  unfold wd_make, wdTo, Rel, rel, wd_fractionalHeight, wd_fractionalWeight. cbn [fst snd].
  rewrite combine_maps.
  exact (map_nth_seq (fun p => (fst p / wd_maxHeight d, snd p / wd_maxWeight d)) d (0, 0)).
Qed.

Lemma last_map {A B} (f : A -> B) l d : last (map f l) (f d) = f (last l d).
Proof. induction l as [|x [|y l] IH]; [reflexivity..|]. exact IH. Qed.
Lemma rel_maxHeight H M d : wd_maxHeight (rel H M d) = wd_maxHeight d / H.
Proof.
  unfold wd_maxHeight, rel. destruct d as [|p d]; [cbn; unfold Rdiv; ring|].
  assert (E : forall l (a b : R * R), l <> [] -> last l a = last l b).
  { intros l a b. induction l as [|x [|y l] IH]; [congruence|reflexivity|]. intros _. apply IH. congruence. }
  set (f := fun p : R * R => (fst p / H, snd p / M)).
  rewrite (E (map f (p :: d)) _ (f (0, 0))) by (cbn; congruence).
  rewrite (last_map f). reflexivity.
Qed.

Definition tw (d : wdist R) (z : R * R) : R * R := fold_left (fun '(total, prevH) '(h, wt) => (total + wt * (h - prevH), h)) d z.
Lemma tw_rel H M d : forall t p, tw (rel H M d) (t / (M * H), p / H) = (fst (tw d (t, p)) / (M * H), snd (tw d (t, p)) / H).
Proof.
  induction d as [|[h wt] d IH]; intros t p; [reflexivity|]. unfold tw in *. cbn [rel map fold_left fst snd].
  rewrite <- IH. do 2 f_equal. unfold Rdiv. rewrite Rinv_mult. ring.
Qed.
Lemma total_rel H M d : H <> 0 -> wd_totalWeight (rel H M d) = wd_totalWeight d / M.
Proof.
  intros HH. unfold wd_totalWeight. num_simpl.
  pose proof (tw_rel H M d 0 0) as E. unfold tw in E.
  replace (0 / (M * H)) with 0 in E by (unfold Rdiv; ring). replace (0 / H) with 0 in E by (unfold Rdiv; ring).
  rewrite E. destruct (fold_left _ d (0, 0)) as [t p]. cbn. unfold Rdiv. rewrite !Rinv_mult, Rinv_inv.
  replace (t * (/ M * / H) * (/ p * H)) with (t * / p * / M * (/ H * H)) by ring. rewrite Rinv_l by auto. ring.
Qed.
Lemma normW_rel H M d : forall a b prev res, H <> 0 ->
  wd_normW_loop 1 a b prev (res / M) (rel H M d) = wd_normW_loop H a b prev res d / M.
Proof.
  induction d as [|[h wt] d IH]; intros a b prev res HH; [reflexivity|]. cbn [rel map wd_normW_loop fst snd]. num_simpl.
  replace (h / H / 1) with (h / H) by (field; auto).
  destruct (Rltb (h / H) a); [now apply IH|]. destruct (Rltb prev (h / H)); [|now apply IH].
  destruct (Rltb b (h / H)); [unfold Rdiv; ring|].
  replace (res / M + wt / M * (h / H - prev)) with ((res + wt * (h / H - prev)) / M) by (unfold Rdiv; ring). now apply IH.
Qed.
Lemma normalized_rel H M d a b : H = wd_maxHeight d -> H <> 0 -> M <> 0 ->
  wd_normalizedWeight (rel H M d) a b = wd_normalizedWeight d a b.
Proof.
  intros E HH HM. unfold wd_normalizedWeight. rewrite total_rel, rel_maxHeight by auto. rewrite <- E.
  num_simpl. replace (H / H) with 1 by (field; auto).
  replace 0 with (0 / M) at 1 by (unfold Rdiv; ring). rewrite normW_rel by auto.
  unfold Rdiv. rewrite Rinv_mult, Rinv_inv.
  match goal with |- ?x * / M * (?y * M) = _ => replace (x * / M * (y * M)) with (x * y * (/ M * M)) by ring end.
  rewrite Rinv_l by auto. ring.
Qed.

Lemma pos_scale x M : 0 < M -> Rltb 0 (x / M) = Rltb 0 x.
Proof.
  intros HM. destruct (Rltb 0 x) eqn:E.
  - apply Rltb_true in E. apply Rltb_true. apply Rdiv_lt_0_compat; auto.
  - apply Rltb_false in E. apply Rltb_false. unfold Rdiv. pose proof (Rinv_0_lt_compat M HM). nra.
Qed.
Definition scl4 (H M : R) (o : outc (R * R * R * wdist R)) : outc (R * R * R * wdist R) :=
  match o with Ok (s, t, n, r) => Ok (s / M, t / M, n, rel H M r) | Err e => Err e | UB e => UB e | NoFuel => NoFuel end.
Lemma inner_rel H M next nodeT : H <> 0 -> 0 < M -> forall d a b s t,
  avgW_inner 1 next nodeT a b (s / M) (t / M) (rel H M d) = scl4 H M (avgW_inner H next nodeT a b s t d).
Proof.
  intros HH HM. induction d as [|[h wt] d IH]; intros a b s t; [reflexivity|].
  cbn [rel map avgW_inner fst snd]. num_simpl. destruct (Rltb b next) eqn:E; [|reflexivity].
  replace (wt / M * (b - a)) with (wt * (b - a) / M) by (unfold Rdiv; ring). rewrite pos_scale by auto.
  assert (G : forall s' t', match map (fun p : R * R => (fst p / H, snd p / M)) d with
     | [] => UB "dereferenced the end of the distribution"%string
     | (h2, _) :: _ => avgW_inner 1 next nodeT b (h2 / 1) (s' / M) (t' / M) (map (fun p : R * R => (fst p / H, snd p / M)) d) end
     = scl4 H M (match d with [] => UB "dereferenced the end of the distribution"%string
                 | (h2, _) :: _ => avgW_inner H next nodeT b (h2 / H) s' t' d end)).
  { intros s' t'. destruct d as [|[h2 w2] d']; [reflexivity|]. rewrite <- IH. cbn [map rel fst snd].
    replace (h2 / H / 1) with (h2 / H) by (field; auto). reflexivity. }
  destruct (Rltb 0 (wt * (b - a))).
  - rewrite <- G. replace (s / M + wt * (b - a) / M * nodeT) with ((s + wt * (b - a) * nodeT) / M) by (unfold Rdiv; ring).
    replace (t / M + wt * (b - a) / M) with ((t + wt * (b - a)) / M) by (unfold Rdiv; ring). reflexivity.
  - rewrite <- G. reflexivity.
Qed.
Definition scl2 (M : R) (o : outc (R * R)) : outc (R * R) :=
  match o with Ok (s, t) => Ok (s / M, t / M) | Err e => Err e | UB e => UB e | NoFuel => NoFuel end.
Lemma loop_rel H M n : H <> 0 -> 0 < M -> forall Ts i s t d,
  avgW_loop 1 n i (s / M) (t / M) (rel H M d) Ts = scl2 M (avgW_loop H n i s t d Ts).
Proof.
  intros HH HM. induction Ts as [|x Ts IH]; intros i s t d; [reflexivity|].
  cbn [avgW_loop]. destruct d as [|[h wt] d]; [reflexivity|].
  change (rel H M ((h, wt) :: d)) with ((h / H, wt / M) :: rel H M d).
  change ((h / H, wt / M) :: rel H M d) with (rel H M ((h, wt) :: d)) at 1.
  num_simpl. replace (h / H / 1) with (h / H) by (field; auto). cbn [rel map fst snd].
  change (map (fun p : R * R => (fst p / H, snd p / M)) d) with (rel H M d).
  change ((h / H, wt / M) :: rel H M d) with (rel H M ((h, wt) :: d)).
  rewrite inner_rel by auto. replace (h / H / 1) with (h / H) by (field; auto).
  destruct (avgW_inner H _ x _ (h / H) s t ((h, wt) :: d)) as [[[[s1 t1] n1] r1]|e|e|]; cbn [scl4 obind]; try reflexivity.
  destruct r1 as [|[h1 w1] r1]; [reflexivity|]. change (rel H M ((h1, w1) :: r1)) with ((h1 / H, w1 / M) :: rel H M r1). num_simpl.
  set (q := nofN (S i) / n - n1).
  replace (w1 / M * q) with (w1 * q / M) by (unfold Rdiv; ring). rewrite pos_scale by auto.
  destruct (Rltb 0 (w1 * q)); change ((h1 / H, w1 / M) :: rel H M r1) with (rel H M ((h1, w1) :: r1)).
  - rewrite <- IH. f_equal; unfold Rdiv; ring.
  - apply IH.
Qed.
Lemma average_rel H M d t : H = wd_maxHeight d -> H <> 0 -> 0 < M -> averageT_wdist (rel H M d) t = averageT_wdist d t.
Proof.
  intros E HH HM. unfold averageT_wdist. rewrite rel_maxHeight, <- E. num_simpl. replace (H / H) with 1 by (field; auto).
  replace 0 with (0 / M) at 1 2 by (unfold Rdiv; ring). rewrite loop_rel by auto.
  destruct (avgW_loop _ _ _ _ _ _ _) as [[s t']|e|e|]; cbn [scl2 obind]; try reflexivity.
  unfold div_chk. num_simpl. destruct (Req_EM_T t' 0) as [->|Ht].
  - replace (0 / M) with 0 by (unfold Rdiv; ring). unfold ndivok, RNum. num_simpl. destruct (Reqb' 0 0) eqn:Ez; [reflexivity|]. apply Reqb'_false in Ez. congruence.
  - assert (t' / M <> 0) by (unfold Rdiv; apply Rmult_integral_contrapositive; split; [auto|apply Rinv_neq_0_compat; lra]).
    unfold ndivok, RNum. num_simpl.
    destruct (Reqb' (t' / M) 0) eqn:E1; [apply Reqb'_true in E1; congruence|]. destruct (Reqb' t' 0) eqn:E2; [apply Reqb'_true in E2; congruence|].
    cbn [negb]. f_equal. field. split; lra.
Qed.

(** *** logics *)
Lemma maxW_ge (d : wdist R) : forall z, z <= fold_left (fun res p => nmax (snd p) res) d z.
Proof. induction d as [|p d IH]; intros z; cbn [fold_left]; [lra|]. eapply Rle_trans; [|apply IH]. unfold nmax. num_simpl. bcase; rcase; lra. Qed.
Lemma maxW_pos (d : wdist R) : forall z, (exists p, In p d /\ 0 < snd p) -> 0 < fold_left (fun res p => nmax (snd p) res) d z.
Proof.
  induction d as [|p d IH]; intros z (q & Hq & Hp); [destruct Hq|]. destruct Hq as [->|Hq]; cbn [fold_left].
  - eapply Rlt_le_trans; [|apply maxW_ge]. unfold nmax. num_simpl. bcase; rcase; lra.
  - apply IH. eauto.
Qed.
Lemma valid_pos d : wd_isValid d = true -> wd_maxHeight d <> 0 /\ 0 < wd_maxHeight d /\ 0 < wd_maxWeight d.
Proof.
  intros HV. apply C45_validity_fact in HV. destruct HV as (A & B & C).
  assert (HH : 0 < wd_maxHeight d).
  { clear C. assert (G : forall d p, d <> [] -> 0 <= p -> ascending p d -> 0 < wd_maxHeight d).
    { clear. induction d as [|[h w] d IH]; intros p Hn Hp Ha; [congruence|]. destruct Ha as [Ha Hb].
      destruct d as [|y d]; [unfold wd_maxHeight; cbn; lra|]. apply (IH h); [congruence|lra|exact Hb]. }
    apply (G d 0); auto; lra. }
  splits; auto; [lra|]. unfold wd_maxWeight. apply maxW_pos. apply Exists_exists in C. destruct C as (p & Hp & Hq). eauto.
Qed.
Lemma valid_Rel d : wd_isValid d = true -> wd_isValid (Rel d) = true.
Proof.
  intros HV. destruct (valid_pos d HV) as (_ & HH & HM). apply C45_validity_fact in HV. destruct HV as (A & B & C).
  apply C45_validity_fact. unfold Rel. set (H := wd_maxHeight d) in *. set (M := wd_maxWeight d) in *. splits.
  - destruct d; [congruence|cbn; congruence].
  - assert (G : forall e p, ascending p e -> ascending (p / H) (rel H M e)).
    { clear - HH. induction e as [|[h w] e IH]; intros p Ha; [exact I|]. destruct Ha as [Ha Hb]. cbn [rel map ascending fst snd].
      split; [|now apply IH]. unfold Rdiv. apply Rmult_lt_compat_r; auto. apply Rinv_0_lt_compat; auto. }
    specialize (G d 0 B). replace (0 / H) with 0 in G by (unfold Rdiv; ring). exact G.
  - apply Exists_exists in C. destruct C as (p & Hp & Hq). apply Exists_exists. exists (fst p / H, snd p / M).
    split; [unfold rel; apply in_map_iff; eauto|]. cbn. apply Rdiv_lt_0_compat; auto.
Qed.
Lemma fold_ext {A B} (f g : A -> B -> A) l : (forall a b, f a b = g a b) -> forall z, fold_left f l z = fold_left g l z.
Proof. intros E. induction l as [|x l IH]; intros z; cbn [fold_left]; [reflexivity|]. rewrite E. apply IH. Qed.
Lemma scan_Rel d Ts : wd_isValid d = true -> temp_scan (Rel d) Ts = temp_scan d Ts.
Proof.
  intros HV. destruct (valid_pos d HV) as (HN & HH & HM). unfold temp_scan. cbv zeta.
  assert (E : forall a b, wd_normalizedWeight (Rel d) a b = wd_normalizedWeight d a b) by (intros; apply normalized_rel; auto; lra).
  apply fold_ext. intros [[[a b] c] e] i. now rewrite E.
Qed.
Definition nwf (d : wdist R) (z : R * R * R) : R * R * R :=
  fold_left (fun '(totWA, totW, prevH) '(h, wt) =>
     (totWA + wt * (h - prevH) * (dec 5 10 * (h + prevH)), totW + wt * (h - prevH), h)) d z.
Lemma nwf_rel H M d : forall a b p, nwf (rel H M d) (a / (M * (H * H)), b / (M * H), p / H) =
  let '(a', b', p') := nwf d (a, b, p) in (a' / (M * (H * H)), b' / (M * H), p' / H).
Proof.
  induction d as [|[h wt] d IH]; intros a b p; [reflexivity|]. unfold nwf in *. cbn [rel map fold_left fst snd].
  rewrite <- IH. clear. apply f_equal. apply (f_equal2 pair); [apply (f_equal2 pair)|]; unfold Rdiv; rewrite ?Rinv_mult; ring.
Qed.
Lemma nwf_last d : forall z, d <> [] -> snd (nwf d z) = wd_maxHeight d.
Proof.
  induction d as [|[h wt] d IH]; intros [[a b] p] Hn; [congruence|]. unfold nwf in *. cbn [fold_left].
  destruct d as [|y d]; [reflexivity|]. rewrite IH by congruence. reflexivity.
Qed.
Lemma nodeFract_Rel d : wd_isValid d = true ->
  (let '(a, b, p) := nwf (Rel d) (0, 0, 0) in a / b / p) = (let '(a, b, p) := nwf d (0, 0, 0) in a / b / p).
Proof.
  intros HV. destruct (valid_pos d HV) as (HN & HH & HM). unfold Rel. set (H := wd_maxHeight d) in *. set (M := wd_maxWeight d) in *.
  pose proof (nwf_rel H M d 0 0 0) as E.
  replace (0 / (M * (H * H))) with 0 in E by (unfold Rdiv; ring). replace (0 / (M * H)) with 0 in E by (unfold Rdiv; ring).
  replace (0 / H) with 0 in E by (unfold Rdiv; ring). rewrite E.
  pose proof (nwf_last d (0, 0, 0)) as L. destruct (nwf d (0, 0, 0)) as [[a b] p]. cbn [snd] in L.
  rewrite L by (apply C45_validity_fact in HV; tauto). fold H.
  destruct (Req_dec b 0) as [->|Hb].
  - unfold Rdiv. rewrite !Rinv_mult, Rinv_0. ring.
  - field. splits; lra.
Qed.

(** Two logics that answer every question the simulator asks of a logic in the same way *)
Record sameDecisions (l l' : logic R) : Prop := {
  sd_valid : l_isValid l' = l_isValid l;
  sd_stby : l_checksStandby l' = l_checksStandby l;
  sd_cmp : l_cmp l' = l_cmp l;
  sd_met : forall w, l_met w l' = l_met w l;
  sd_limit : forall w, l_comparison w l' = l_comparison w l;
  sd_fract : forall w, l_fract w l' = l_fract w l;
  sd_place : forall w, l_nodeWeightAvgFract w l' = l_nodeWeightAvgFract w l }.

Lemma KC (t : R) : K_TO_C (C_TO_K t) = t.
Proof. unfold K_TO_C, C_TO_K, absolute_zeroT, dec. num_simpl. ring. Qed.
Lemma CK (t : R) : C_TO_K (K_TO_C t) = t.
Proof. unfold K_TO_C, C_TO_K, absolute_zeroT, dec. num_simpl. ring. Qed.
Lemma cmpTo_eq (c : cmp) : @cmpTo R _ c = match c with CLess => DC_less | CGreater => DC_greater end.
Proof.
  unfold cmpTo, compare. num_simpl. destruct c; bcase; rcase; auto; try lra.
Qed.
Definition wdistPart (d : distribution R) : distribution R :=
  match d_type d with DWeighted => mkdist DWeighted (Rel (d_w d)) | t => mkdist t [] end.
Lemma logic_rt desc d dp isAbs c hts stby :
  exists label, logicMake (logicTo (TempLogic desc d dp isAbs c hts stby)) =
    Ok (Some (TempLogic label (wdistPart d) dp isAbs c false stby)).
Proof.
  unfold logicTo. destruct (wdTo (d_w d)) as [hs ws] eqn:Ew.
  pose proof (wdTo_Rel (d_w d)) as Er. rewrite Ew in Er. cbn [fst snd] in Er.
  unfold logicMake, makeDist, makeLabel, wdistPart. cbn [dl_type dl_payload dl_cmp dt_abs dt_diff dt_loc dt_wd dt_stby].
  rewrite cmpTo_eq.
  destruct isAbs, c, stby, (d_type d); cbn [toIf negb from]; rewrite ?Er, ?KC; eexists; reflexivity.
Qed.
Lemma temp_same desc d dp isAbs c hts stby label : dist_isValid d = true ->
  sameDecisions (TempLogic desc d dp isAbs c hts stby) (TempLogic label (wdistPart d) dp isAbs c false stby).
Proof.
  intros HV. unfold wdistPart, dist_isValid in *. destruct d as [ty d]. cbn [d_type d_w] in *. destruct ty.
  - destruct (valid_pos d HV) as (HN & HH & HM). constructor; cbn [l_isValid l_checksStandby l_cmp].
    + unfold dist_isValid. cbn [d_type d_w]. rewrite HV. now apply valid_Rel.
    + reflexivity.
    + reflexivity.
    + intros w. unfold l_met, l_tankValue, averageT_distribution. cbn [d_type d_w].
      unfold Rel. rewrite average_rel by auto. reflexivity.
    + reflexivity.
    + intros w. unfold l_fract, temp_fract. cbn [d_type d_w]. rewrite scan_Rel by auto. reflexivity.
    + intros w. unfold l_nodeWeightAvgFract. cbn [d_type d_w]. pose proof (nodeFract_Rel d HV) as E. unfold nwf in E.
      num_simpl.
      match goal with |- context[fold_left ?f (Rel d) ?z] => destruct (fold_left f (Rel d) z) as [[a b] p] end.
      match goal with |- context[fold_left ?f d ?z] => destruct (fold_left f d z) as [[a' b'] p'] end.
      now rewrite E.
  - constructor; reflexivity.
  - constructor; reflexivity.
Qed.

Lemma C67_temperature_logic_fact : forall desc (d : distribution R) dp isAbs c hts stby,
  l_isValid (TempLogic desc d dp isAbs c hts stby) = true ->
  exists label d', logicMake (logicTo (TempLogic desc d dp isAbs c hts stby)) = Ok (Some (TempLogic label d' dp isAbs c false stby)) /\
    sameDecisions (TempLogic desc d dp isAbs c hts stby) (TempLogic label d' dp isAbs c false stby).
Proof.
  intros desc d dp isAbs c hts stby HV. destruct (logic_rt desc d dp isAbs c hts stby) as (label & E).
  exists label, (wdistPart d). split; [exact E|]. now apply temp_same.
Qed.
Lemma C67_example_fact :
  l_isValid (TempLogic "fourth sixth" (mkdist DWeighted [(1 / 3, 0); (2 / 3, 2); (1, 1)]) (dF_TO_dC 20) false CLess false true) = true /\
  exists l', logicMake (logicTo (TempLogic "fourth sixth" (mkdist DWeighted [(1 / 3, 0); (2 / 3, 2); (1, 1)]) (dF_TO_dC 20) false CLess false true)) = Ok (Some l') /\
    l' <> TempLogic "fourth sixth" (mkdist DWeighted [(1 / 3, 0); (2 / 3, 2); (1, 1)]) (dF_TO_dC 20) false CLess false true.
Proof.
  assert (V : wd_isValid [(1 / 3, 0); (2 / 3, 2); (1, 1)] = true) by (apply C45_validity_fact; splits; [congruence|cbn; splits; lra|right; left; cbn; lra]).
  split; [exact V|].
  destruct (logic_rt "fourth sixth" (mkdist DWeighted [(1 / 3, 0); (2 / 3, 2); (1, 1)]) (dF_TO_dC 20) false CLess false true) as (label & E).
  eexists; split; [exact E|]. unfold wdistPart. cbn [d_type d_w]. intros X.
  apply (f_equal (fun l => match l with TempLogic _ d _ _ _ _ _ => nth 1 (map snd (d_w d)) 0 | _ => 0 end)) in X.
  unfold Rel, rel in X. cbn [d_w nth map fst snd] in X.
  assert (M : wd_maxWeight [(1 / 3, 0); (2 / 3, 2); (1, 1)] = 2).
  { assert (X0 : forall a b : R, a < b -> nmax a b = b) by (intros a b Hab; unfold nmax; num_simpl; rewrite (proj2 (Rltb_true a b) Hab); auto).
    assert (X1 : forall a b : R, b <= a -> nmax a b = a) by (intros a b Hab; unfold nmax; num_simpl; rewrite (proj2 (Rltb_false a b) Hab); auto).
    unfold wd_maxWeight. cbn [fold_left snd]. num_simpl. rewrite (X1 0 0), (X1 2 0), (X0 1 2) by lra. reflexivity. }
  rewrite M in X. lra.
Qed.

Lemma C67_charge_logic_fact : forall desc (dp hyst tMin : R) cm mains c stby,
  exists l', logicMake (logicTo (SoCLogic desc dp hyst tMin cm mains c stby)) = Ok (Some l') /\
    (forall w, l_comparison w l' = - (5 / 100)) /\ l_cmp l' = CLess /\
    (forall w, 0 <= w_SoC w -> l_met w l' <> Ok true).
Proof.
  intros desc dp hyst tMin cm mains c stby. eexists. split; [reflexivity|]. splits.
  - intros w. cbn [l_comparison from socTo assignBase ds_point]. unfold dec. num_simpl. lra.
  - reflexivity.
  - intros w Hw. unfold l_met. cbn [l_tankValue negb]. destruct (w_haveInletT w); cbn [negb andb obind]; [|congruence].
    cbn [l_comparison compare l_cmp from socTo assignBase ds_point]. unfold dec. num_simpl.
    destruct (Rltb (w_SoC w) _) eqn:E; [|congruence]. apply Rltb_true in E. lra.
Qed.
Lemma C67_charge_refuted_fact : exists (l l' : logic R) w,
  logicMake (logicTo l) = Ok (Some l') /\ l_isValid l = true /\ l_met w l = Ok true /\ l_met w l' = Ok false.
Proof.
  exists (SoCLogic "turn on" (1 / 2) 0 40 false 18 CLess false).
  destruct (C67_charge_logic_fact "turn on" (1 / 2) 0 40 false 18 CLess false) as (l' & E & HL & HC & HM).
  exists l', (set_w_haveInletT true (set_w_SoC (1 / 4) (exUnit (T:=R) [20; 30]))). splits.
  - exact E.
  - cbn [l_isValid]. num_simpl. bcase; rcase; auto; lra.
  - unfold l_met. cbn [l_tankValue negb]. wsimpl. cbn [negb andb obind l_comparison compare l_cmp]. wsimpl. num_simpl. f_equal. apply Rltb_true. lra.
  - pose proof (HM (set_w_haveInletT true (set_w_SoC (1 / 4) (exUnit (T:=R) [20; 30])))) as X. wsimpl_in X. specialize (X ltac:(lra)).
    injection E as <-. unfold l_met in *. cbn [l_tankValue negb] in *. wsimpl_in X. wsimpl. cbn [negb andb obind] in *.
    destruct (compare _ _ _); congruence.
Qed.

(** ** C68: the tank *)

Lemma C68_tank_fact : forall (t t0 : tank R), let t' := tankFrom (tankTo t) t0 in
  t_volume t' = t_volume t /\ t_UA t' = t_UA t /\ t_fitUA t' = t_fitUA t /\
  (t_mixesOnDraw t' = true <-> t_mixesOnDraw t = true /\ 0 < t_mixBelowFrac t) /\
  (t_mixesOnDraw t = true -> t_mixBelowFrac t' = t_mixBelowFrac t) /\
  t_hasHX t' = t_hasHX t /\ (t_hasHX t = true -> t_hxEff t' = t_hxEff t) /\
  t_Ts t' = t_Ts t0 /\ t_fixed t' = t_fixed t0 /\ t_inlet t' = t_inlet t0 /\ t_inlet2 t' = t_inlet2 t0 /\
  t_doMix t' = t_doMix t0 /\ t_doCond t' = t_doCond t0 /\ t_nodeVol t' = t_nodeVol t0 /\ t_nodeCp t' = t_nodeCp t0.
Proof.
  intros t t0. unfold tankTo, tankFrom. cbn [dk_volume dk_ua dk_fit dk_mix dk_hx from option_map].
  destruct (t_hasHX t), (t_mixesOnDraw t); cbn [toIf t_volume t_UA t_fitUA t_mixesOnDraw t_mixBelowFrac t_hasHX t_hxEff t_Ts t_fixed t_inlet t_inlet2
    t_doMix t_doCond t_nodeVol t_nodeCp set_t_volume set_t_UA set_t_fitUA set_t_mixesOnDraw set_t_mixBelowFrac set_t_hasHX set_t_hxEff]; num_simpl;
  splits; auto; try (field; fail); try discriminate; rewrite ?Rltb_true; try tauto; try (split; [lra|intros [X _]; discriminate X]).
Qed.
Lemma C68_fraction_refuted_fact : exists t : tank R, t_mixBelowFrac (tankFrom (tankTo t) t) <> t_mixBelowFrac t.
Proof.
  exists (set_t_mixesOnDraw false (set_t_mixBelowFrac (1 / 3) (exTankG [20; 30]))).
  intros X. vm_compute in X. lra.
Qed.
Lemma C68_volume_refuted_fact : exists t : tank float, neqb (t_volume (tankFrom (tankTo t) t)) (t_volume t) = false /\
  nltb (nofZ 253) (t_volume t) = true /\ nltb (t_volume t) (nofZ 254) = true.
Proof.
  exists (set_t_volume (GAL_TO_L (nofZ 67)) (exTankG [])). vm_compute. auto.
Qed.
