(** Proofs of the theorems stated in PropsDist.v: Properties of height distributions, resampling, averages, state of charge and heating logics *)

From Coq Require Import ZArith String List Bool Reals Lra Lia.
From Verif Require Import Num Base Units Utils Types TankM Logic HeatSrc Setters Spec SpecState SpecDist.
From Verif Require Import RList FrameProofs SimFrame MixProofs TankProofs DrawProofs DistProofs ResampleProofs AvgProofs TankFacts Example.
Import ListNotations.
Local Open Scope R_scope.
(** ** C39: fractional heights *)
Lemma Rlt_le_Z a b : IZR a < IZR b + 1 -> (a <= b)%Z.
Proof. intros HH. assert (IZR a < IZR (b + 1)) by (rewrite plus_IZR; lra). apply lt_IZR in H. lia. Qed.
Lemma INR_IZR n : INR n = IZR (Z.of_nat n).
Proof. apply INR_IZR_INZ. Qed.

Lemma C39_fraction_selects_node_fact : forall n f, (0 < n)%nat -> 0 <= f <= 1 ->
  exists z, nodeFromFraction n f = Ok z /\ (0 <= z < Z.of_nat n)%Z /\
    IZR z / INR n <= f /\ (f < (IZR z + 1) / INR n \/ (f = 1 /\ z = (Z.of_nat n - 1)%Z)).
Proof.
  intros n f Hn Hf. pose proof (INR_pos _ Hn) as HP. unfold nodeFromFraction. num_simpl.
  destruct (Rltb 1 f) eqn:E1; bcase; [lra|]. destruct (Rltb f 0) eqn:E2; bcase; [lra|]. cbn [orb].
  rewrite nofN_R. pose proof (Num.Rfloor_spec (INR n * f)) as HF. num_simpl. set (z := Rfloor (INR n * f)) in *.
  assert (HB : 0 <= INR n * f <= INR n) by nra.
  assert (Hz : (0 <= z <= Z.of_nat n)%Z).
  { split; [apply Rlt_le_Z; lra|]. apply Rlt_le_Z. rewrite <- INR_IZR. lra. }
  destruct (Z.eqb_spec z (Z.of_nat n)) as [EQ|NE].
  - eexists. split; [reflexivity|]. assert (f = 1).
    { rewrite EQ, <- INR_IZR in HF. assert (INR n * f = INR n) by lra. nra. }
    subst f. splits; try lia; [|right; auto]. rewrite minus_IZR, <- INR_IZR. apply div_le_l; lra.
  - eexists. split; [reflexivity|]. splits; try lia.
    + apply div_le_l; lra.
    + left. apply Rmult_lt_reg_r with (INR n); auto. unfold Rdiv. rewrite Rmult_assoc, Rinv_l, Rmult_1_r by lra. lra.
Qed.

Lemma C39_monotone_fact : forall n f g a b, (0 < n)%nat -> f <= g ->
  nodeFromFraction n f = Ok a -> nodeFromFraction n g = Ok b -> (a <= b)%Z.
Proof.
  intros n f g a b Hn Hfg. pose proof (INR_pos _ Hn) as HP. unfold nodeFromFraction. num_simpl.
  destruct (Rltb 1 f) eqn:E1; bcase; cbn [orb]; try discriminate. destruct (Rltb f 0) eqn:E2; bcase; cbn [orb]; try discriminate.
  destruct (Rltb 1 g) eqn:E3; bcase; cbn [orb]; try discriminate. destruct (Rltb g 0) eqn:E4; bcase; cbn [orb]; try discriminate.
  rewrite nofN_R. intros HA HB. inversion HA; inversion HB; subst a b. clear HA HB.
  assert (HM : (Rfloor (INR n * f) <= Rfloor (INR n * g))%Z) by (apply Num.Rfloor_mono; nra).
  assert (HT : (Rfloor (INR n * g) <= Z.of_nat n)%Z).
  { pose proof (Num.Rfloor_spec (INR n * g)). apply Rlt_le_Z. rewrite <- INR_IZR. nra. }
  num_simpl. destruct (Z.eqb_spec (Rfloor (INR n * f)) (Z.of_nat n)); destruct (Z.eqb_spec (Rfloor (INR n * g)) (Z.of_nat n)); lia.
Qed.
Lemma C39_ends_fact : forall n, (0 < n)%nat ->
  nodeFromFraction n (0 : R) = Ok 0%Z /\ nodeFromFraction n (1 : R) = Ok (Z.of_nat n - 1)%Z.
Proof.
  intros n Hn. unfold nodeFromFraction. num_simpl. rewrite nofN_R.
  destruct (Rltb 1 0) eqn:E1; bcase; [lra|]. destruct (Rltb 0 0) eqn:E2; bcase; [lra|].
  destruct (Rltb 1 1) eqn:E3; bcase; [lra|]. destruct (Rltb 1 0) eqn:E4; bcase; [lra|]. cbn [orb].
  replace (Rfloor (INR n * 0)) with 0%Z by (symmetry; apply Num.Rfloor_unique; rewrite Rmult_0_r; cbn; lra).
  replace (Rfloor (INR n * 1)) with (Z.of_nat n) by (symmetry; apply Num.Rfloor_unique; rewrite Rmult_1_r, <- INR_IZR; lra).
  rewrite Z.eqb_refl. split; auto. destruct (Z.eqb_spec 0 (Z.of_nat n)); auto. lia.
Qed.
Lemma C39_set_inlet_fact : forall (t : tank R) f, wf_tank t ->
  (~ 0 <= f <= 1 -> (exists e, setInletByFraction f t = (Err e, t)) /\ (exists e, setInlet2ByFraction f t = (Err e, t))) /\
  (0 <= f <= 1 -> exists z, nodeFromFraction (length (t_Ts t)) f = Ok z /\ (0 <= z < Z.of_nat (length (t_Ts t)))%Z /\
     setInletByFraction f t = (Ok tt, set_t_inlet z t) /\ setInlet2ByFraction f t = (Ok tt, set_t_inlet2 z t)).
Proof.
  intros t f Hwf. split.
  - intros Hf. assert (E : exists e, nodeFromFraction (numNodes t) f = Err e).
    { unfold nodeFromFraction. num_simpl. destruct (Rltb 1 f) eqn:E1; bcase; cbn [orb]; [eauto|].
      destruct (Rltb f 0) eqn:E2; bcase; cbn [orb]; [eauto|]. exfalso. lra. }
    destruct E as [e E]. split; exists e; [unfold setInletByFraction|unfold setInlet2ByFraction]; unfold bind, get, lift; rewrite E; reflexivity.
  - intros Hf. destruct (C39_fraction_selects_node_fact _ f (wf_n _ Hwf) Hf) as (z & E & Hz & _).
    exists z. splits; auto; try apply Hz; [unfold setInletByFraction|unfold setInlet2ByFraction]; unfold bind, get, lift, numNodes; rewrite E; reflexivity.
Qed.

(** A usable compressor index: it names an existing source. *)
Definition compOK (w : hpwh R) : Prop := (0 <= w_compIx w < Z.of_nat (length (w_hs w)))%Z.
Lemma compressor_ok w : compOK w -> exists h, compressor w = Ok h /\ nth_error (w_hs w) (Z.to_nat (w_compIx w)) = Some h.
Proof.
  intros [H1 H2]. unfold compressor. replace (Z.ltb (w_compIx w) 0) with false by (symmetry; apply Z.ltb_ge; auto).
  destruct (nth_error (w_hs w) (Z.to_nat (w_compIx w))) eqn:E; eauto. apply nth_error_None in E. lia.
Qed.
Lemma externalIx_spec (w : hpwh R) c hs : compressor w = Ok c -> forall i k,
  externalIx w hs i = Ok (Some k) -> h_config c = External /\ (i <= k < i + length hs)%nat /\
    (exists h, nth_error hs (k - i) = Some h /\ h_type h = TCompressor).
Proof.
  intros HC. induction hs as [|h hs IH]; intros i k; cbn [externalIx]; [discriminate|].
  destruct (h_type h) eqn:ET.
  - rewrite HC. cbn [obind]. destruct (h_config c) eqn:EC; intros E;
      try (destruct (IH _ _ E) as (A & B & h' & D & F); discriminate A).
    inversion E; subst. split; auto. cbn [length]. split; [lia|]. exists h. rewrite Nat.sub_diag. auto.
  - intros E. destruct (IH _ _ E) as (A & B & h' & D & F). split; auto. cbn [length]. split; [lia|].
    exists h'. split; auto. replace (k - i)%nat with (S (k - S i)) by lia. auto.
Qed.
Lemma externalIx_total (w : hpwh R) c hs : compressor w = Ok c -> forall i, exists o, externalIx w hs i = Ok o.
Proof.
  intros HC. induction hs as [|h hs IH]; intros i; cbn [externalIx]; eauto.
  destruct (h_type h); [rewrite HC; cbn [obind]; destruct (h_config c); eauto|eauto].
Qed.
Lemma C39_set_external_port_fact : forall (w : hpwh R) f, wf_tank (w_tank w) -> compOK w ->
  (exists e, setExternalInletHeightByFraction f w = (Err e, w) /\ exists e', setExternalOutletHeightByFraction f w = (Err e', w)) \/
  (exists k h z, 0 <= f <= 1 /\ nth_error (w_hs w) k = Some h /\ h_type h = TCompressor /\
     nodeFromFraction (length (t_Ts (w_tank w))) f = Ok z /\ (0 <= z < Z.of_nat (length (t_Ts (w_tank w))))%Z /\
     setExternalInletHeightByFraction f w = (Ok tt, set_w_hs (upd (w_hs w) k (set_h_extIn z h)) w) /\
     setExternalOutletHeightByFraction f w = (Ok tt, set_w_hs (upd (w_hs w) k (set_h_extOut z h)) w)).
Proof.
  intros w f Hwf HC. destruct (compressor_ok _ HC) as (c & Ec & _).
  destruct (externalIx_total _ _ (w_hs w) Ec 0) as (o & Eo).
  unfold setExternalInletHeightByFraction, setExternalOutletHeightByFraction, setExternalPort, bind, get, lift.
  unfold hasExternalHeatSource. rewrite Eo. destruct o as [k|].
  - destruct (externalIx_spec _ _ _ Ec _ _ Eo) as (A & B & h & D & F). rewrite Nat.sub_0_r in D.
    destruct (Rle_dec 0 f) as [H0|H0]; [destruct (Rle_dec f 1) as [H1|H1]|].
    + right. destruct (C39_fraction_selects_node_fact _ f (wf_n _ Hwf) (conj H0 H1)) as (z & E & Hz & _).
      exists k, h, z. unfold numNodes. rewrite E. unfold modHS, modify, updHS. rewrite D. splits; auto; lia.
    + left. unfold nodeFromFraction. num_simpl. replace (Rltb 1 f) with true by (symmetry; apply Rltb_true; lra). cbn [orb].
      eexists. split; [reflexivity|]. eexists. reflexivity.
    + left. unfold nodeFromFraction. num_simpl. replace (Rltb f 0) with true by (symmetry; apply Rltb_true; lra). rewrite orb_true_r.
      eexists. split; [reflexivity|]. eexists. reflexivity.
  - left. eexists. split; [reflexivity|]. eexists. reflexivity.
Qed.
Lemma C39_example_fact : nodeFromFraction 4 (3 / 5 : R) = Ok 2%Z /\ (exists e, nodeFromFraction 4 (6 / 5 : R) = Err e).
Proof.
  unfold nodeFromFraction. num_simpl. rewrite nofN_R.
  replace (Rltb 1 (3 / 5)) with false by (symmetry; apply Rltb_false; lra). replace (Rltb (3 / 5) 0) with false by (symmetry; apply Rltb_false; lra).
  replace (Rltb 1 (6 / 5)) with true by (symmetry; apply Rltb_true; lra). cbn [orb]. split; [|eauto].
  replace (Rfloor (INR 4 * (3 / 5))) with 2%Z by (symmetry; apply Num.Rfloor_unique; cbn; lra). reflexivity.
Qed.

(** ** C40 *)
Lemma C40_layer_temperatures_fact : forall (w : hpwh R) Ts u, wf_tank (w_tank w) -> Ts <> [] -> u = U_C \/ u = U_F ->
  let Cs := match u with U_C => Ts | _ => map (fun x => (x - 32) / (9 / 5)) Ts end in
  let n := length (t_Ts (w_tank w)) in
  exists Ns, setTankLayerTemperatures Ts u w = (Ok tt, set_w_tank (set_t_Ts Ns (w_tank w)) w) /\
    length Ns = n /\
    (forall k, (k < n)%nat -> node Ns k = meanOver Cs (INR k / INR n) (INR (S k) / INR n)) /\
    Rsum Ns / INR n = Rsum Cs / INR (length Cs) /\
    (forall lo hi, within lo hi Cs -> within lo hi Ns) /\
    (stratified Cs -> stratified Ns) /\ (length Cs = n -> Ns = Cs).
Proof.
  intros w Ts u Hwf Hne Hu Cs n.
  assert (HCs : Cs <> []) by (unfold Cs; destruct Hu; subst u; auto; destruct Ts; [congruence|discriminate]).
  assert (Ecs : (match u with U_C => Ok Ts | U_F => Ok (map F_TO_C Ts) | _ => badUnits end) = Ok Cs).
  { unfold Cs. destruct Hu; subst u; auto. }
  destruct (resample_eq (t_Ts (w_tank w)) Cs HCs) as (Ns & E & HL & HN). fold n in HL, HN.
  exists Ns. assert (Hn : (0 < n)%nat) by exact (wf_n _ Hwf).
  splits; auto.
  - unfold setTankLayerTemperatures, bind, lift. rewrite Ecs. unfold onTank, setNodeTs.
    destruct Cs as [|x r] eqn:ECs; [congruence|]. unfold bind, get, lift, modify. rewrite E. reflexivity.
  - rewrite Rsum_bsum, HL. rewrite (bsum_ext _ (slice Cs n)) by auto. apply slices_mean; auto.
  - intros lo hi Hw. apply within_node. intros k Hk. rewrite HL in Hk. rewrite HN by auto. apply slice_within; auto.
  - intros Hs i Hi. rewrite HL in Hi. rewrite !HN by lia. apply slice_mono; auto.
  - intros HE. apply list_eq_node; [lia|]. intros k Hk. rewrite HL in Hk. rewrite HN by auto. rewrite <- HE. apply slice_same. lia.
Qed.
Lemma C40_rejected_fact : forall (w : hpwh R) Ts u, Ts = [] \/ (u <> U_C /\ u <> U_F) ->
  exists e, setTankLayerTemperatures Ts u w = (Err e, w).
Proof.
  intros w Ts u HH. assert (Ew : forall v, onTank (setNodeTs []) v = (Err "No temperatures provided.", (v : hpwh R))).
  { intros v. unfold onTank, setNodeTs, throw. destruct v; reflexivity. }
  unfold setTankLayerTemperatures, bind, lift. destruct HH as [->|[H1 H2]].
  - destruct u; cbn [map]; rewrite ?Ew; eexists; reflexivity.
  - destruct u; try congruence; eexists; reflexivity.
Qed.
Lemma C40_example_fact : exists w : hpwh R, wf_tank (w_tank w) /\ length (t_Ts (w_tank w)) = 4%nat /\
  [20; 30; 40] <> ([] : list R) /\ meanOver [20; 30; 40] (INR 1 / INR 4) (INR 2 / INR 4) = 80 / 3.
Proof.
  exists (exUnit [20; 20; 20; 20]). splits; auto; try discriminate.
  - constructor; cbn [w_tank exUnit exTankG t_Ts t_volume t_nodeVol t_nodeCp length]; try lia; num_simpl; try lra.
    unfold nofN. num_simpl. cbn. lra.
  - unfold meanOver. cbn [length profileInt]. unfold overlap. cbn [INR].
    repeat match goal with |- context [Rmax ?a ?b] => first [rewrite (Rmax_left a b) by lra | rewrite (Rmax_right a b) by lra]
      | |- context [Rmin ?a ?b] => first [rewrite (Rmin_left a b) by lra | rewrite (Rmin_right a b) by lra] end. lra.
Qed.

(** ** C41 *)
Lemma C41_total_preserved_fact : forall values s : list R, s <> [] -> (0 < length values)%nat ->
  exists vs, resampleExtensive values s = Ok vs /\ length vs = length values /\ Rsum vs = Rsum s /\
    (forall i, (i < length values)%nat -> node vs i = INR (length s) *
       profileInt (INR (length s)) 0 s (INR i / INR (length values)) (INR (S i) / INR (length values))) /\
    ((forall x, In x s -> 0 <= x) -> forall x, In x vs -> 0 <= x).
Proof.
  intros values s Hs Hv. destruct (resampleExtensive_eq values s Hs Hv) as (vs & E & HL & HN & HS).
  exists vs. splits; auto. intros Hp x Hx. apply In_node in Hx. destruct Hx as (k & Hk & <-). rewrite HL in Hk. rewrite HN by auto.
  apply Rmult_le_pos; [apply pos_INR|].
  assert (HP : forall l m k a b, (forall x, In x l -> 0 <= x) -> 0 <= profileInt m k l a b).
  { induction l as [|y l IH]; intros m k0 a b Hl; cbn [profileInt]; [lra|].
    pose proof (Hl y (or_introl eq_refl)). pose proof (overlap_nonneg (INR k0 / m) (INR (S k0) / m) a b).
    assert (0 <= profileInt m (S k0) l a b) by (apply IH; intros; apply Hl; right; auto). nra. }
  apply HP; auto.
Qed.
Lemma C41_example_fact : [100; 200; 300] <> ([] : list R) /\ (0 < length [0; 0])%nat.
Proof. split; [discriminate|cbn; lia]. Qed.

(** ** C42 *)
Lemma C42_thermocouple_fact : forall (t : tank R) i n, wf_tank t -> (1 <= i <= n)%Z ->
  exists T, nthThermocouple i n t = Ok T /\
    T = meanOver (t_Ts t) (IZR (i - 1) / IZR n) (IZR i / IZR n) /\
    (forall lo hi, within lo hi (t_Ts t) -> lo <= T <= hi).
Proof.
  intros t i n Hwf Hi. pose proof (wf_n _ Hwf) as HL. assert (Hne : t_Ts t <> []) by (destruct (t_Ts t); [cbn in HL; lia|discriminate]).
  unfold nthThermocouple. replace (i >? n)%Z with false by (symmetry; rewrite Z.gtb_ltb; apply Z.ltb_ge; lia).
  replace (i <? 1)%Z with false by (symmetry; apply Z.ltb_ge; lia). cbn [orb]. num_simpl.
  assert (Hn : 0 < IZR n) by (apply IZR_lt; lia). assert (H1 : 1 <= IZR i) by (apply IZR_le; lia). assert (H2 : IZR i <= IZR n) by (apply IZR_le; lia).
  assert (Ei : IZR i - 1 = IZR (i - 1)) by (rewrite minus_IZR; auto).
  rewrite getResampledValue_eq; auto.
  - eexists. split; [reflexivity|]. rewrite Ei. split; auto. intros lo hi Hw.
    replace i with (Z.of_nat (S (Z.to_nat (i - 1)))) by lia. replace n with (Z.of_nat (Z.to_nat n)) by lia.
    replace (Z.of_nat (S (Z.to_nat (i - 1))) - 1)%Z with (Z.of_nat (Z.to_nat (i - 1))) by lia. rewrite <- !INR_IZR.
    apply (slice_within lo hi (t_Ts t) (Z.to_nat n) (Z.to_nat (i - 1))); auto. lia.
  - rewrite Ei. apply div_le_r; auto. rewrite Rmult_0_l. apply IZR_le. lia.
  - apply Rmult_lt_compat_r; [apply Rinv_0_lt_compat; auto|lra].
  - apply div_le_l; lra.
Qed.
Lemma C42_average_fact : forall (t : tank R) n, wf_tank t -> (0 < n)%nat ->
  exists rs, length rs = n /\
    (forall k, (k < n)%nat -> nthThermocouple (Z.of_nat (S k)) (Z.of_nat n) t = Ok (node rs k)) /\
    Rsum rs / INR n = Rsum (t_Ts t) / INR (length (t_Ts t)).
Proof.
  intros t n Hwf Hn. pose proof (wf_n _ Hwf) as HL. assert (Hne : t_Ts t <> []) by (destruct (t_Ts t); [cbn in HL; lia|discriminate]).
  exists (map (slice (t_Ts t) n) (seq 0 n)). rewrite map_length, seq_length.
  assert (HN : forall k, (k < n)%nat -> node (map (slice (t_Ts t) n) (seq 0 n)) k = slice (t_Ts t) n k).
  { intros k Hk. unfold node. rewrite (nth_indep _ 0 (slice (t_Ts t) n 0)) by (rewrite map_length, seq_length; auto).
    rewrite map_nth, seq_nth by auto. reflexivity. }
  splits; auto.
  - intros k Hk. destruct (C42_thermocouple_fact t (Z.of_nat (S k)) (Z.of_nat n) Hwf ltac:(lia)) as (T & E & ET & _).
    rewrite E, HN, ET by auto. replace (Z.of_nat (S k) - 1)%Z with (Z.of_nat k) by lia. rewrite <- !INR_IZR. reflexivity.
  - rewrite Rsum_bsum, map_length, seq_length. rewrite (bsum_ext _ (slice (t_Ts t) n)) by auto. apply slices_mean; auto.
Qed.
Lemma C42_rejected_fact : forall (t : tank R) i n, ~ (1 <= i <= n)%Z -> exists e, nthThermocouple i n t = Err e.
Proof.
  intros t i n HI. unfold nthThermocouple. destruct (i >? n)%Z eqn:E1; cbn [orb]; [eauto|].
  destruct (i <? 1)%Z eqn:E2; [eauto|]. apply Z.ltb_ge in E2. rewrite Z.gtb_ltb in E1. apply Z.ltb_ge in E1. lia.
Qed.
Lemma C42_example_fact : wf_tank (exTank [20; 30; 40; 50]) /\ (1 <= 2 <= 3)%Z.
Proof. split; [apply exTank_wf; cbn; lia|lia]. Qed.

(** ** C43 *)
Lemma normalize_keeps : forall fuel d d', (forall x, In x d -> 0 <= x) -> 0 < Rsum d -> normalize fuel d = Ok d' ->
  (exists c, 0 < c /\ forall j, (j < length d)%nat -> node d' j = 0 \/ node d' j = c * node d j) /\
  (forall j, (j < length d)%nat -> TOL_MINVALUE * Rsum d <= node d j -> node d j / Rsum d <= node d' j).
Proof.
  pose proof tol_pos as HT.
  induction fuel as [|fuel IH]; intros d d' HN HS E; [discriminate|]. cbn [normalize] in E. rewrite pass_eq in E by auto.
  assert (HN' : forall x, In x (map (cut (Rsum d)) d) -> 0 <= x).
  { intros x Hx. apply in_map_iff in Hx. destruct Hx as (y & <- & Hy). apply cut_nonneg; auto. }
  assert (HI : 0 < / Rsum d) by (apply Rinv_0_lt_compat; auto).
  assert (HC : forall j, (j < length d)%nat -> node (map (cut (Rsum d)) d) j = 0 \/ node (map (cut (Rsum d)) d) j = / Rsum d * node d j).
  { intros j Hj. rewrite node_map by auto. unfold cut. destruct (Rltb _ _); auto. right. unfold Rdiv. ring. }
  assert (HB : forall j, (j < length d)%nat -> TOL_MINVALUE * Rsum d <= node d j -> node (map (cut (Rsum d)) d) j = node d j / Rsum d /\ TOL_MINVALUE <= node d j / Rsum d).
  { intros j Hj Hb. rewrite node_map by auto. assert (TOL_MINVALUE <= node d j / Rsum d) by (apply div_le_r; auto).
    unfold cut. destruct (Rltb _ _) eqn:E2; bcase; [lra|auto]. }
  destruct (existsb (small (Rsum d)) d) eqn:E1.
  - assert (HLe : Rsum (map (cut (Rsum d)) d) <= 1).
    { assert (Hle : forall l, (forall x, In x l -> 0 <= x) -> Rsum (map (cut (Rsum d)) l) <= Rsum l / Rsum d).
      { induction l as [|y l IHl]; intros Hl; cbn [map Rsum fold_right]; [unfold Rdiv; lra|].
        pose proof (IHl (fun x Hx => Hl x (or_intror Hx))) as I1. pose proof (Hl y (or_introl eq_refl)) as I2.
        assert (cut (Rsum d) y <= y / Rsum d).
        { unfold cut. destruct (Rltb _ _); [|lra]. apply Rmult_le_pos; lra. }
        fold (Rsum (map (cut (Rsum d)) l)). fold (Rsum l). replace ((y + Rsum l) / Rsum d) with (y / Rsum d + Rsum l / Rsum d) by (field; lra). lra. }
      apply Rle_trans with (Rsum d / Rsum d); auto. right. field. lra. }
    destruct (Rle_dec (Rsum (map (cut (Rsum d)) d)) 0) as [H0|H0].
    + (* everything was cut off *)
      assert (HZ : forall x, In x d' -> x = 0).
      { destruct (normalize_spec _ _ _ HN' E) as (_ & _ & _ & _ & _ & _ & _ & A8). auto. }
      assert (HL' : length d' = length d).
      { destruct (normalize_spec _ _ _ HN' E) as (A1 & _). rewrite map_length in A1. auto. }
      split.
      * exists 1. split; [lra|]. intros j Hj. left. apply HZ. apply node_In. lia.
      * intros j Hj Hb. exfalso. destruct (HB j Hj Hb) as (B1 & B2).
        assert (node (map (cut (Rsum d)) d) j <= Rsum (map (cut (Rsum d)) d)).
        { apply Rsum_ge_elem; auto. apply node_In. rewrite map_length. auto. }
        lra.
    + assert (HS' : 0 < Rsum (map (cut (Rsum d)) d)) by lra.
      destruct (IH _ _ HN' HS' E) as ((c & Hc & HP) & HG). rewrite map_length in *. split.
      * exists (c * / Rsum d). split; [apply Rmult_lt_0_compat; auto|]. intros j Hj. destruct (HP j Hj) as [Z|Z]; auto.
        destruct (HC j Hj) as [Y|Y]; rewrite Y in Z; [left; rewrite Z; ring|right; rewrite Z; ring].
      * intros j Hj Hb. destruct (HB j Hj Hb) as (B1 & B2).
        apply Rle_trans with (node (map (cut (Rsum d)) d) j / Rsum (map (cut (Rsum d)) d)).
        -- rewrite B1. apply div_le_r; auto. nra.
        -- apply HG; auto. rewrite B1. nra.
  - inversion E; subst d'. split; [eauto|]. intros j Hj Hb. destruct (HB j Hj Hb) as (-> & _). lra.
Qed.
Lemma C43_normalize_fact : forall d : list R, (forall x, In x d -> 0 <= x) ->
  forall fuel, (length d < fuel)%nat -> exists d', normalize fuel d = Ok d' /\ length d' = length d /\
    (forall x, In x d' -> x = 0 \/ 1 / 10000 <= x) /\
    (Rsum d' = 1 \/ (forall x, In x d' -> x = 0)) /\
    (0 < Rsum d -> (exists c, 0 < c /\ forall j, (j < length d)%nat -> node d' j = 0 \/ node d' j = c * node d j) /\
       (forall j, (j < length d)%nat -> 1 / 10000 * Rsum d <= node d j -> node d j / Rsum d <= node d' j)) /\
    (0 < Rsum d -> INR (length d) <= 10000 -> Rsum d' = 1) /\
    (forall i j, (i < length d)%nat -> (j < length d)%nat -> node d i <= node d j -> node d' i <= node d' j) /\
    (Rsum d <= 0 -> forall x, In x d' -> x = 0).
Proof.
  intros d HN fuel Hf. assert (Hz : (nz d < fuel)%nat).
  { apply Nat.le_lt_trans with (length d); auto. unfold nz. clear. induction d as [|x d IH]; cbn; auto. destruct (Rltb 0 x); cbn; lia. }
  destruct (normalize_terminates _ _ Hz) as (d' & E). destruct (normalize_spec _ _ _ HN E) as (A1 & A2 & A3 & A4 & A5 & A6 & A7 & A8).
  exists d'. split; [exact E|]. split; [exact A1|]. split; [|split; [exact A4|split; [|split; [|split; [exact A7|exact A8]]]]].
  - intros x Hx. rewrite <- tol_val. apply A3; auto.
  - intros HS. destruct (normalize_keeps _ _ _ HN HS E) as (B1 & B2). rewrite <- tol_val. split; auto.
  - intros HS HL. apply A5; auto. rewrite tol_val. lra.
Qed.
Lemma C43_many_entries_refuted_fact : exists d : list R, (forall x, In x d -> 0 < x) /\ 0 < Rsum d /\
  forall fuel, (length d < fuel)%nat -> exists d', normalize fuel d = Ok d' /\ (forall x, In x d' -> x = 0).
Proof.
  set (n := Z.to_nat 10001). exists (repeat 1 n).
  assert (HN : forall x, In x (repeat 1 n) -> x = 1) by (intros x Hx; apply repeat_spec in Hx; auto).
  assert (HS : Rsum (repeat 1 n) = 10001).
  { assert (forall k, Rsum (repeat 1 k) = INR k) as HR.
    { induction k; cbn [repeat Rsum fold_right]; [reflexivity|]. fold (Rsum (repeat 1 k)). rewrite IHk, S_INR. lra. }
    rewrite HR. rewrite INR_IZR. unfold n. rewrite Z2Nat.id by lia. reflexivity. }
  splits; [intros x Hx; rewrite (HN x Hx); lra|lra|]. intros fuel Hf. rewrite repeat_length in Hf.
  destruct fuel as [|fuel]; [lia|]. exists (map (fun _ => 0) (map (cut 10001) (repeat 1 n))).
  assert (HCz : forall x, In x (map (cut 10001) (repeat 1 n)) -> x = 0).
  { intros x Hx. apply in_map_iff in Hx. destruct Hx as (y & <- & Hy). rewrite (HN y Hy). unfold cut. rewrite tol_val.
    destruct (Rltb _ _) eqn:E1; bcase; auto. lra. }
  assert (HSz : Rsum (map (cut 10001) (repeat 1 n)) = 0).
  { revert HCz. generalize (map (cut 10001) (repeat 1 n)). induction l as [|x l IH]; intros HZ; cbn [Rsum fold_right]; auto.
    fold (Rsum l). rewrite (HZ x), IH; [lra|intros; apply HZ; right; auto|left; auto]. }
  split.
  - cbn [normalize]. rewrite pass_eq by lra. rewrite HS. destruct (existsb (small 10001) (repeat 1 n)) eqn:E1.
    + assert (HF : (0 < fuel)%nat) by (unfold n in Hf; lia). destruct fuel as [|fuel]; [lia|]. cbn [normalize]. rewrite pass_eq0 by lra. reflexivity.
    + f_equal. apply list_eq_node; [rewrite !map_length; auto|]. intros k Hk.
      rewrite (HCz (node _ k)) by (apply node_In; auto). symmetry. rewrite (node_map (fun _ => 0)); auto.
  - intros x Hx. apply in_map_iff in Hx. destruct Hx as (? & <- & _). auto.
Qed.
Lemma C43_example_fact : (forall x, In x [1; 2; 0] -> 0 <= x) /\ 0 < Rsum [1; 2; 0].
Proof. split; [intros x [<-|[<-|[<-|[]]]]; lra|cbn; lra]. Qed.

(** ** C44 *)
Lemma C44_thermal_distribution_fact : forall (shrink : R) lowest Ts setpoint fuel,
  shrink <> 0 -> (0 < length Ts)%nat -> INR (length Ts) <= 10000 -> (length Ts < fuel)%nat ->
  exists d, calcThermalDist fuel shrink lowest Ts setpoint = Ok d /\ shares (length Ts) d /\
    ((exists i, (lowest <= i < length Ts)%nat /\ node Ts i < setpoint) ->
       forall j, (j < length Ts)%nat -> (j < lowest)%nat \/ setpoint <= node Ts j -> node d j = 0) /\
    ((forall i, (lowest <= i < length Ts)%nat -> setpoint <= node Ts i) ->
       forall j, (j < length Ts)%nat -> node d j = 1 / INR (length Ts)).
Proof.
  intros s lo Ts sp fuel Hs HL HL' Hf. destruct (calcThermalDist_ok fuel s lo Ts sp Hs Hf) as (d & E). exists d. split; auto.
  apply (calcThermalDist_spec _ _ _ _ _ _ HL) in E; auto. rewrite tol_val. lra.
Qed.
Lemma C44_cooler_nodes_first_fact : forall (shrink : R) lowest Ts setpoint fuel d i j,
  0 < shrink -> (0 < length Ts)%nat -> INR (length Ts) <= 10000 ->
  calcThermalDist fuel shrink lowest Ts setpoint = Ok d ->
  (lowest <= i < length Ts)%nat -> (lowest <= j < length Ts)%nat -> node Ts i <= node Ts j -> node d j <= node d i.
Proof.
  intros s lo Ts sp fuel d i j Hs HL HL' E Hi Hj Hij. revert E. unfold calcThermalDist. num_simpl.
  destruct (negb (Reqb' s 0)) eqn:E0; [|discriminate].
  assert (HLen : length (map (thermalEntry s lo Ts sp) (seq 0 (length Ts))) = length Ts) by (rewrite map_length, seq_length; auto).
  assert (HE : forall k, (k < length Ts)%nat -> node (map (thermalEntry s lo Ts sp) (seq 0 (length Ts))) k = thermalEntry s lo Ts sp k).
  { intros k Hk. unfold node. rewrite (nth_indep _ 0 (thermalEntry s lo Ts sp 0)) by lia. rewrite map_nth, seq_nth by auto. reflexivity. }
  assert (HM : thermalEntry s lo Ts sp j <= thermalEntry s lo Ts sp i).
  { unfold thermalEntry. replace (Nat.leb lo i) with true by (symmetry; apply Nat.leb_le; lia).
    replace (Nat.leb lo j) with true by (symmetry; apply Nat.leb_le; lia). gn. num_simpl.
    set (o := 5 / dec 18 10 / 1).
    set (ei := expitFunc ((node Ts i - node Ts lo) / s) o). set (ej := expitFunc ((node Ts j - node Ts lo) / s) o).
    assert (Pi : 0 < ei) by apply expit_pos. assert (Pj : 0 < ej) by apply expit_pos.
    assert (He : ej <= ei).
    { unfold ei, ej, expitFunc. num_simpl. assert (HX : (node Ts i - node Ts lo) / s - o <= (node Ts j - node Ts lo) / s - o).
      { apply Rplus_le_compat_r. apply Rmult_le_compat_r; [left; apply Rinv_0_lt_compat; auto|lra]. }
      assert (exp ((node Ts i - node Ts lo) / s - o) <= exp ((node Ts j - node Ts lo) / s - o)).
      { destruct HX as [HX|HX]; [left; apply exp_increasing; auto|rewrite HX; lra]. }
      pose proof (exp_pos ((node Ts i - node Ts lo) / s - o)). unfold Rdiv. rewrite !Rmult_1_l. apply Rinv_le_contravar; lra. }
    destruct (Rltb (ej * (sp - node Ts j)) 0) eqn:Ej; destruct (Rltb (ei * (sp - node Ts i)) 0) eqn:Ei; bcase; try lra.
    - assert (0 <= sp - node Ts j) by (apply Rmult_le_reg_l with ej; auto; lra). nra.
    - assert (0 <= sp - node Ts j) by (apply Rmult_le_reg_l with ej; auto; lra). nra. }
  destruct (Rltb 0 (nsum _)) eqn:E1; intros E.
  - apply normalize_spec in E.
    + destruct E as (_ & _ & _ & _ & _ & _ & A7 & _). rewrite HLen in A7. apply A7; try lia. rewrite !HE by lia. auto.
    + intros x Hx. apply in_map_iff in Hx. destruct Hx as (k & <- & _). apply thermalEntry_nonneg.
  - inversion E. assert (HC : forall (c : R) l k, (k < length l)%nat -> node (map (fun _ : R => c) l) k = c) by (intros; apply (node_map (fun _ => c)); auto).
    rewrite !HC by (rewrite HLen; lia). lra.
Qed.
Lemma C44_example_fact : (1 : R) <> 0 /\ (0 < length [20; 30; 40])%nat /\ INR (length [20; 30; 40]) <= 10000 /\
  (exists i, (1 <= i < length [20; 30; 40])%nat /\ node [20; 30; 40] i < 35).
Proof. splits; try lra; [cbn; lia|cbn; lra|exists 1%nat; split; [cbn; lia|cbn; lra]]. Qed.

(** ** C45 *)
Lemma valid_fold (w : list (R * R)) : forall hasW sorted prev a b c,
  fold_left (fun '(hasW, sorted, prevH) '(h, wt) => (hasW || Rltb 0 wt, sorted && Rltb prevH h, h)%bool) w (hasW, sorted, prev) = (a, b, c) ->
  (a = true -> hasW = true \/ Exists (fun p => 0 < snd p) w) /\ (b = true -> sorted = true /\ ascending prev w) /\
  (sorted = true -> ascending prev w -> b = true) /\ (hasW = true \/ Exists (fun p => 0 < snd p) w -> a = true).
Proof.
  induction w as [|[h wt] w IH]; intros hasW sorted prev a b c; cbn [fold_left].
  - intros E. inversion E; subst. splits; auto; [split; auto; exact I|]. intros [H1|H1]; auto. inversion H1.
  - intros E. destruct (IH _ _ _ _ _ _ E) as (A & B & C & D). splits.
    + intros Ha. destruct (A Ha) as [A1|A1]; [|right; right; auto]. apply orb_true_iff in A1. destruct A1 as [A1|A1]; auto.
      right. left. apply Rltb_true in A1. auto.
    + intros Hb. destruct (B Hb) as (B1 & B2). apply andb_true_iff in B1. destruct B1 as (B3 & B4). split; auto. cbn [ascending].
      apply Rltb_true in B4. auto.
    + intros Hs [HA1 HA2]. apply C; auto. rewrite Hs. cbn. apply Rltb_true; auto.
    + intros HH. apply D. destruct HH as [HH|HH]; [left; rewrite HH; auto|]. inversion HH; subst; auto.
      left. cbn [snd] in H0. rewrite (proj2 (Rltb_true _ _) H0). apply orb_true_r.
Qed.
Lemma C45_validity_fact : forall w : wdist R, wd_isValid w = true <->
  w <> [] /\ ascending 0 w /\ Exists (fun p => 0 < snd p) w.
Proof.
  intros w. unfold wd_isValid. num_simpl. destruct (fold_left _ w _) as [[a b] c] eqn:E.
  destruct (valid_fold _ _ _ _ _ _ _ E) as (A & B & C & D). split.
  - intros HH. apply andb_true_iff in HH. destruct HH as (H1 & H2). apply andb_true_iff in H1. destruct H1 as (H0 & H1).
    split; [destruct w; discriminate|split; [apply B; auto|]]. destruct (A H1) as [X|X]; [discriminate|auto].
  - intros (H1 & H2 & H3). destruct w; [congruence|]. rewrite D, C by auto. reflexivity.
Qed.
Lemma valid_good (w : wdist R) : wd_isValid w = true -> Forall (fun p => 0 <= snd p) w -> goodDist w.
Proof. intros HV HN. apply C45_validity_fact in HV. destruct HV as (A & B & C). constructor; auto. Qed.
Lemma C45_is_integral_fact : forall (w : wdist R) a b, wd_isValid w = true -> 0 <= a <= b ->
  wd_normalizedWeight w a b = massOver (topHeight w) 0 w a b / massOver (topHeight w) 0 w 0 1.
Proof. intros w a b HV Hab. apply C45_validity_fact in HV. destruct HV as (A & B & C). apply normalizedWeight_eq; auto. Qed.
Lemma C45_additive_normalised_fact : forall (w : wdist R) a b c, wd_isValid w = true -> Forall (fun p => 0 <= snd p) w -> 0 <= a <= b -> b <= c ->
  wd_normalizedWeight w a c = wd_normalizedWeight w a b + wd_normalizedWeight w b c /\
  0 <= wd_normalizedWeight w a b /\ wd_normalizedWeight w a a = 0 /\ wd_normalizedWeight w 0 1 = 1.
Proof.
  intros w a b c HV HN Hab Hbc. pose proof (valid_good _ HV HN) as HG. destruct HG as [G1 G2 G3 G4].
  rewrite !normalizedWeight_eq by (auto; lra). assert (HG : goodDist w) by (constructor; auto).
  splits; [apply share_add; auto; lra|apply share_nonneg; auto|apply share_empty; auto|apply share_full; auto].
Qed.
Lemma C45_example_fact : wd_isValid [(1 / 3, 0); (2 / 3, 2); (1, 1)] = true /\ Forall (fun p => 0 <= snd p) [(1 / 3, 0); (2 / 3, 2); (1, 1)].
Proof.
  split; [apply C45_validity_fact; splits; [discriminate|cbn; lra|right; left; cbn; lra]|].
  repeat (apply Forall_cons; [cbn; lra|]). apply Forall_nil.
Qed.

(** ** C46 *)
Lemma C46_weighted_average_fact : forall (w : wdist R) (t : tank R), wf_tank t -> wd_isValid w = true -> Forall (fun p => 0 <= snd p) w ->
  let n := length (t_Ts t) in
  let weight k := share w (INR k / INR n) (INR (S k) / INR n) in
  exists T, averageT_distribution (mkdist DWeighted w) t = Ok T /\
    T = Rsum (map (fun k => weight k * node (t_Ts t) k) (seq 0 n)) /\ Rsum (map weight (seq 0 n)) = 1 /\
    (forall lo hi, (forall k, (k < n)%nat -> 0 < weight k -> lo <= node (t_Ts t) k <= hi) -> lo <= T <= hi).
Proof.
  intros w t Hwf HV HN n weight. pose proof (valid_good _ HV HN) as HG. pose proof (wf_n _ Hwf) as HL. fold n in HL.
  assert (HS : forall f m, Rsum (map f (seq 0 m)) = bsum f m).
  { intros f m. rewrite Rsum_bsum, map_length, seq_length. apply bsum_ext. intros k Hk. unfold node.
    rewrite (nth_indep _ 0 (f 0%nat)) by (rewrite map_length, seq_length; auto). rewrite map_nth, seq_nth by auto. reflexivity. }
  exists (bsum (fun k => node (t_Ts t) k * weight k) n). assert (H1 : bsum weight n = 1).
  { rewrite <- HS. unfold weight. rewrite (shares_prefix w n HG HL n) by lia.
    replace (INR n / INR n) with 1 by (field; pose proof (INR_pos _ HL); lra). apply share_full; auto. }
  splits.
  - cbn [averageT_distribution d_type d_w]. apply averageT_wdist_eq; auto.
  - rewrite HS. apply bsum_ext. intros. ring.
  - rewrite HS. auto.
  - intros lo hi HB. assert (HW : forall k, 0 <= weight k) by (intros; apply share_nonneg; auto).
    assert (HX : forall c, bsum (fun k => c * weight k) n = c) by (intros; rewrite bsum_scal, H1; ring).
    split; [rewrite <- (HX lo) at 1|rewrite <- (HX hi)]; apply bsum_le; intros k Hk; destruct (HW k) as [P|P];
      try (rewrite <- P; lra); destruct (HB k Hk P); nra.
Qed.
Lemma C46_top_bottom_fact : forall (t : tank R) wd, wf_tank t ->
  averageT_distribution (mkdist DTop wd) t = Ok (node (t_Ts t) (length (t_Ts t) - 1)) /\
  averageT_distribution (mkdist DBottom wd) t = Ok (node (t_Ts t) 0).
Proof.
  intros t wd Hwf. pose proof (wf_n _ Hwf) as HL. cbn [averageT_distribution d_type]. destruct (t_Ts t) as [|x r]; [cbn in HL; lia|].
  split; auto. f_equal. unfold node. replace (length (x :: r) - 1)%nat with (length r) by (cbn; lia). clear HL Hwf t.
  revert x. induction r as [|y r IH]; intros x; [reflexivity|]. specialize (IH y). cbn [length nth]. exact IH.
Qed.
Lemma C46_example_fact : wf_tank (exTank [20; 30; 40; 50]) /\ wd_isValid [(1 / 3, 0); (2 / 3, 2); (1, 1)] = true.
Proof. split; [apply exTank_wf; cbn; lia|]. apply C45_validity_fact. splits; [discriminate|cbn; lra|right; left; cbn; lra]. Qed.

(** ** C47 *)
Lemma findLowest_spec w n : goodDist w -> (0 < n)%nat -> forall k j, (j + k = n)%nat ->
  share w 0 (INR j / INR n) = 0 -> let r := findLowest_loop w n j k in
  (j <= r < n)%nat /\ 0 < share w 0 (INR (S r) / INR n) /\ share w 0 (INR r / INR n) = 0.
Proof.
  intros HG Hn. pose proof (INR_pos _ Hn) as HP. induction k as [|k IH]; intros j Hj H0; cbn [findLowest_loop].
  - exfalso. replace j with n in H0 by lia. replace (INR n / INR n) with 1 in H0 by (field; lra).
    rewrite share_full in H0 by auto. lra.
  - rewrite Nat.div_small by lia. num_simpl. rewrite !nofN_R.
    replace (INR j + 1) with (INR (S j)) by (rewrite S_INR; auto). cbn [INR].
    change (match j with O => 1 | S _ => INR j + 1 end) with (INR (S j)).
    rewrite normalizedWeight_eq; [|apply gd_asc; auto|apply gd_ne; auto|split; [lra|apply frac_bounds; lia]].
    destruct (Rltb 0 _) eqn:E; bcase.
    + splits; auto; lia.
    + destruct (IH (S j) ltac:(lia)) as (A & B & C); [pose proof (share_nonneg w 0 (INR (S j) / INR n) HG); lra|].
      splits; auto; lia.
Qed.
Lemma C47_lowest_node_fact : forall (w : wdist R) n, wd_isValid w = true -> Forall (fun p => 0 <= snd p) w -> (0 < n)%nat ->
  let j := findLowestNode w n in
  (j < n)%nat /\ 0 < share w (INR j / INR n) (INR (S j) / INR n) /\
  (forall i, (i < j)%nat -> share w (INR i / INR n) (INR (S i) / INR n) = 0).
Proof.
  intros w n HV HN Hn j. pose proof (valid_good _ HV HN) as HG. pose proof (INR_pos _ Hn) as HP.
  destruct (findLowest_spec w n HG Hn n 0%nat) as (A & B & C); [lia|cbn [INR]; replace (0 / INR n) with 0 by (unfold Rdiv; ring); apply share_empty; auto|].
  fold (findLowestNode w n) in A, B, C. fold j in A, B, C.
  assert (HA : forall i, (i <= n)%nat -> 0 <= INR i / INR n <= 1) by (intros; apply frac_bounds; auto).
  assert (HST : forall i, INR i / INR n <= INR (S i) / INR n) by (intros; apply frac_step; auto).
  splits; [lia| |].
  - rewrite (share_add w 0 (INR j / INR n) (INR (S j) / INR n)) in B; auto; [lra|]. split; [apply HA; lia|auto].
  - intros i Hi. assert (H1 : share w 0 (INR j / INR n) = share w 0 (INR (S i) / INR n) + share w (INR (S i) / INR n) (INR j / INR n)).
    { apply share_add; auto. split; [apply HA; lia|]. apply idx_le; auto. }
    rewrite (share_add w 0 (INR i / INR n) (INR (S i) / INR n)) in H1; auto; [|split; [apply HA; lia|auto]].
    pose proof (share_nonneg w 0 (INR i / INR n) HG). pose proof (share_nonneg w (INR i / INR n) (INR (S i) / INR n) HG).
    pose proof (share_nonneg w (INR (S i) / INR n) (INR j / INR n) HG). lra.
Qed.
Lemma C47_example_fact : wd_isValid [(1 / 3, 0); (1, 1)] = true /\ (0 < 4)%nat.
Proof. split; [|lia]. apply C45_validity_fact. splits; [discriminate|cbn; lra|right; left; cbn; lra]. Qed.

(** ** C48 *)
Definition usefulHeat (mains tMin : R) (x : R) : R := if Rlt_dec x tMin then 0 else x - mains.
Lemma charge_eq mains tMin x : mains < tMin -> getChargePerNode mains tMin x = usefulHeat mains tMin x / (tMin - mains).
Proof. intros HH. unfold getChargePerNode, usefulHeat. num_simpl. destruct (Rltb x tMin) eqn:E; bcase; destruct (Rlt_dec x tMin); try lra; unfold Rdiv; ring. Qed.
Lemma charge_fold mains tMin l : mains < tMin -> forall acc,
  fold_left (fun acc x => nadd acc (getChargePerNode mains tMin x)) l acc = acc + Rsum (map (usefulHeat mains tMin) l) / (tMin - mains).
Proof.
  intros HH. induction l as [|x l IH]; intros acc; cbn [fold_left map Rsum fold_right]; [unfold Rdiv; lra|].
  rewrite IH, charge_eq by auto. num_simpl. fold (Rsum (map (usefulHeat mains tMin) l)). field. lra.
Qed.
Lemma C48_formula_fact : forall (t : tank R) mains tMin tMax, wf_tank t -> mains < tMin -> tMin <= tMax ->
  calcSoCFraction mains tMin tMax t =
  Rsum (map (fun x => if Rlt_dec x tMin then 0 else x - mains) (t_Ts t)) / (INR (length (t_Ts t)) * (tMax - mains)).
Proof.
  intros t mains tMin tMax Hwf H1 H2. unfold calcSoCFraction. num_simpl. rewrite nofN_R. rewrite charge_fold by auto.
  rewrite charge_eq by auto. unfold usefulHeat at 2. destruct (Rlt_dec tMax tMin); [lra|]. pose proof (INR_pos _ (wf_n _ Hwf)). unfold numNodes.
  change (fun x : R => if Rlt_dec x tMin then 0 else x - mains) with (usefulHeat mains tMin). field. splits; lra.
Qed.
Lemma C48_bounds_fact : forall (t : tank R) mains tMin tMax, wf_tank t -> mains < tMin -> tMin <= tMax ->
  ((forall x, In x (t_Ts t) -> x < tMin) -> calcSoCFraction mains tMin tMax t = 0) /\
  ((forall x, In x (t_Ts t) -> x = tMax) -> calcSoCFraction mains tMin tMax t = 1) /\
  0 <= calcSoCFraction mains tMin tMax t /\
  ((forall x, In x (t_Ts t) -> x <= tMax) -> calcSoCFraction mains tMin tMax t <= 1) /\
  (forall Ts', length Ts' = length (t_Ts t) -> (forall k, (k < length Ts')%nat -> node (t_Ts t) k <= node Ts' k) ->
     calcSoCFraction mains tMin tMax t <= calcSoCFraction mains tMin tMax (set_t_Ts Ts' t)).
Proof.
  intros t mains tMin tMax Hwf H1 H2. assert (HF : forall t', wf_tank t' -> calcSoCFraction mains tMin tMax t' =
    bsum (fun k => usefulHeat mains tMin (node (t_Ts t') k)) (length (t_Ts t')) / (INR (length (t_Ts t')) * (tMax - mains))).
  { intros t' Hwf'. rewrite C48_formula_fact by auto. rewrite Rsum_map_bsum. reflexivity. }
  pose proof (INR_pos _ (wf_n _ Hwf)) as HP. assert (HD : 0 < INR (length (t_Ts t)) * (tMax - mains)) by nra.
  assert (HU : forall x, 0 <= usefulHeat mains tMin x) by (intros; unfold usefulHeat; destruct (Rlt_dec x tMin); lra).
  assert (HI : 0 < / (INR (length (t_Ts t)) * (tMax - mains))) by (apply Rinv_0_lt_compat; auto).
  rewrite HF by auto. splits.
  - intros HA. rewrite (bsum_ext _ (fun _ => 0)); [rewrite bsum_0; unfold Rdiv; ring|]. intros k Hk.
    unfold usefulHeat. destruct (Rlt_dec _ _); auto. exfalso. apply n. apply HA. apply node_In; auto.
  - intros HA. rewrite (bsum_ext _ (fun _ => tMax - mains)); [rewrite bsum_const; field; lra|]. intros k Hk.
    rewrite (HA _ (node_In _ _ Hk)). unfold usefulHeat. destruct (Rlt_dec _ _); lra.
  - apply Rmult_le_pos; [|lra]. apply bsum_nonneg. auto.
  - intros HA. apply div_le_l; auto. rewrite Rmult_1_l. rewrite <- bsum_const. apply bsum_le. intros k Hk.
    unfold usefulHeat. pose proof (HA _ (node_In _ _ Hk)). destruct (Rlt_dec _ _); lra.
  - intros Ts' HL HM. rewrite HF by (apply wf_set_Ts; auto). cbn [t_Ts set_t_Ts]. rewrite HL. apply Rmult_le_compat_r; [lra|].
    apply bsum_le. intros k Hk. rewrite <- HL in Hk. specialize (HM k Hk). unfold usefulHeat.
    destruct (Rlt_dec (node (t_Ts t) k) tMin); destruct (Rlt_dec (node Ts' k) tMin); lra.
Qed.
Lemma C48_example_fact : wf_tank (exTank [20; 30; 45; 60]) /\ calcSoCFraction 15 43 60 (exTank [20; 30; 45; 60]) = 75 / 180.
Proof.
  assert (Hw : wf_tank (exTank [20; 30; 45; 60])) by (apply exTank_wf; cbn; lia). split; auto.
  rewrite C48_formula_fact by (auto; lra). cbn [exTank t_Ts map Rsum fold_right length INR].
  repeat match goal with |- context [Rlt_dec ?a ?b] => destruct (Rlt_dec a b); try lra end.
Qed.

(** ** C49 *)
(** what switching to state-of-charge control installs: turn on below target - hyst, off above target + hyst *)
Record socControlled (target hyst : R) (h : hsrc R) : Prop := {
  sc_on : forall l, In l (h_turnOn h) -> exists s tm cm m b, l = SoCLogic s target (- hyst) tm cm m CLess b;
  sc_on_ne : h_turnOn h <> [];
  sc_off : forall l, In l (h_shutOff h) -> isHTS l = true \/ exists s tm cm m b, l = SoCLogic s target hyst tm cm m CGreater b;
  sc_off_ex : exists l, In l (h_shutOff h) /\ isHTS l = false
}.
Lemma soc_met_on (w : hpwh R) s target hyst tm cm m b r : l_met w (SoCLogic s target hyst tm cm m CLess b) = Ok r -> (r = true <-> w_SoC w < target + hyst).
Proof.
  unfold l_met. cbn [l_tankValue]. destruct (negb (w_haveInletT w) && negb cm)%bool; [discriminate|]. cbn [obind l_cmp compare l_comparison]. num_simpl.
  intros E. inversion E. apply Rltb_true.
Qed.
Lemma soc_met_off (w : hpwh R) s target hyst tm cm m b r : l_met w (SoCLogic s target hyst tm cm m CGreater b) = Ok r -> (r = true <-> target + hyst < w_SoC w).
Proof.
  unfold l_met. cbn [l_tankValue]. destruct (negb (w_haveInletT w) && negb cm)%bool; [discriminate|]. cbn [obind l_cmp compare l_comparison]. num_simpl.
  intros E. inversion E. apply Rltb_true.
Qed.
Lemma switch_inv (w w' : hpwh R) target hyst tMin cm mains u o : switchToSoCControls target hyst tMin cm mains u w = (o, w') ->
  (exists a, o = Ok a) -> exists tm m, m < tm /\ w' = set_w_usesSoC true (set_w_hs (map (toSoC target hyst tm cm m) (w_hs w)) w).
Proof.
  unfold switchToSoCControls, bind, get, lift. destruct (negb (hasCompressor w)); [intros E [a Ha]; inversion E; subst; discriminate|].
  destruct (compressor w) as [c| | |]; try (intros E [a Ha]; inversion E; subst; discriminate).
  destruct (h_config c); try (unfold throw; intros E [a Ha]; inversion E; subst; discriminate).
  destruct (tempToC tMin u) as [tm| | |]; try (intros E [a Ha]; inversion E; subst; discriminate).
  destruct (tempToC mains u) as [m| | |]; try (intros E [a Ha]; inversion E; subst; discriminate).
  num_simpl. destruct (Rleb tm m) eqn:E1; bcase; unfold throw, modify; intros E [a Ha]; inversion E; subst; [discriminate|].
  exists tm, m. split; auto.
Qed.
Lemma C49_switch_fact : forall (w w' : hpwh R) target hyst tMin cm mains u,
  switchToSoCControls target hyst tMin cm mains u w = (Ok tt, w') ->
  w_usesSoC w' = true /\ length (w_hs w') = length (w_hs w) /\ Forall (socControlled target hyst) (w_hs w').
Proof.
  intros w w' target hyst tMin cm mains u E. destruct (switch_inv _ _ _ _ _ _ _ _ _ E (ex_intro _ tt eq_refl)) as (tm & m & Hm & ->).
  wsimpl. rewrite map_length. splits; auto. apply Forall_forall. intros h Hh. apply in_map_iff in Hh. destruct Hh as (h0 & <- & _).
  constructor; cbn [toSoC set_h_turnOn set_h_shutOff h_turnOn h_shutOff].
  - intros l [<-|[]]. unfold turnOnSoC. num_simpl. eauto 10.
  - discriminate.
  - intros l Hl. apply in_app_or in Hl. destruct Hl as [Hl|[<-|[]]]; [left; apply filter_In in Hl; apply Hl|right; unfold shutOffSoC; eauto 10].
  - exists (shutOffSoC target hyst tm cm m). split; auto. apply in_or_app. right. left. auto.
Qed.
Lemma C49_retarget_fact : forall (w w' : hpwh R) t0 hyst target, Forall (socControlled t0 hyst) (w_hs w) ->
  setTargetSoCFraction target w = (Ok tt, w') -> 0 <= target /\ w_targetSoC w' = target /\ Forall (socControlled target hyst) (w_hs w').
Proof.
  intros w w' t0 hyst target HF. unfold setTargetSoCFraction, bind, get. destruct (negb (w_usesSoC w)); [unfold throw; intros E; discriminate|].
  num_simpl. destruct (Rltb target 0) eqn:E1; bcase; unfold throw, modify; intros E; inversion E; subst; clear E. wsimpl. splits; auto.
  apply Forall_forall. intros h Hh. apply in_map_iff in Hh. destruct Hh as (h0 & <- & Hh0). rewrite Forall_forall in HF. destruct (HF _ Hh0) as [A B C D].
  constructor; cbn [retarget set_h_turnOn set_h_shutOff h_turnOn h_shutOff].
  - intros l Hl. apply in_map_iff in Hl. destruct Hl as (l0 & <- & Hl0). destruct (A _ Hl0) as (s & tm & cm & m & b & ->). cbn [setDecision]. eauto 10.
  - destruct (h_turnOn h0); [congruence|discriminate].
  - intros l Hl. apply in_map_iff in Hl. destruct Hl as (l0 & <- & Hl0). destruct (isHTS l0) eqn:EH; [left; auto|].
    destruct (C _ Hl0) as [X|(s & tm & cm & m & b & ->)]; [congruence|]. right. cbn [setDecision]. eauto 10.
  - destruct D as (l & Hl & HH). exists (setDecision target l). split; [|destruct l; auto].
    apply in_map_iff. exists l. rewrite HH. auto.
Qed.
Lemma C49_dead_band_fact : forall target hyst (h : hsrc R) (v : hpwh R) l1 l2, 0 <= hyst -> socControlled target hyst h ->
  In l1 (h_turnOn h) -> In l2 (h_shutOff h) -> isHTS l2 = false ->
  ~ (l_met v l1 = Ok true /\ l_met v l2 = Ok true).
Proof.
  intros target hyst h v l1 l2 Hh [A B C D] H1 H2 HT (E1 & E2).
  destruct (A _ H1) as (s & tm & cm & m & b & ->). destruct (C _ H2) as [X|(s' & tm' & cm' & m' & b' & ->)]; [congruence|].
  apply soc_met_on in E1. apply soc_met_off in E2. assert (w_SoC v < target + - hyst) by (apply E1; auto). assert (target + hyst < w_SoC v) by (apply E2; auto). lra.
Qed.
Lemma C49_negative_hysteresis_refuted_fact : exists (w w' : hpwh R) h l1 l2,
  switchToSoCControls (1 / 2) (- (1 / 10)) 43 true 15 U_C w = (Ok tt, w') /\ In h (w_hs w') /\
  In l1 (h_turnOn h) /\ In l2 (h_shutOff h) /\ l_met (set_w_SoC (1 / 2) w') l1 = Ok true /\ l_met (set_w_SoC (1 / 2) w') l2 = Ok true.
Proof.
  set (w := set_w_hs (map (set_h_config External) (w_hs (exUnit (T:=R) [20; 20; 20; 20]))) (exUnit [20; 20; 20; 20])).
  set (w' := set_w_usesSoC true (set_w_hs (map (toSoC (1 / 2) (- (1 / 10)) 43 true 15) (w_hs w)) w)).
  assert (E : switchToSoCControls (1 / 2) (- (1 / 10)) 43 true 15 U_C w = (Ok tt, w')).
  { unfold switchToSoCControls, bind, get, lift. cbn -[w']. replace (Rleb 43 15) with false by (symmetry; apply Rleb_false; lra). reflexivity. }
  eexists w, w', _, _, _. split; [exact E|]. split; [left; reflexivity|]. split; [left; reflexivity|].
  split; [apply in_or_app; right; left; reflexivity|]. split.
  - unfold l_met, turnOnSoC. cbn [l_tankValue]. rewrite andb_false_r. cbn [obind l_cmp compare l_comparison]. num_simpl. f_equal. apply Rltb_true. cbn. lra.
  - unfold l_met, shutOffSoC. cbn [l_tankValue]. rewrite andb_false_r. cbn [obind l_cmp compare l_comparison]. num_simpl. f_equal. apply Rltb_true. cbn. lra.
Qed.
Lemma C49_example_fact : exists w w' : hpwh R, switchToSoCControls (7 / 10) (1 / 20) 43 true 15 U_C w = (Ok tt, w') /\ length (w_hs w') = 3%nat /\ 0 <= 1 / 20.
Proof.
  set (w := set_w_hs (map (set_h_config External) (w_hs (exUnit (T:=R) [20; 20; 20; 20]))) (exUnit [20; 20; 20; 20])).
  exists w. eexists. split; [|split; [|lra]].
  - unfold switchToSoCControls, bind, get, lift. cbn -[map toSoC w]. replace (Rleb 43 15) with false by (symmetry; apply Rleb_false; lra). unfold modify. reflexivity.
  - wsimpl. reflexivity.
Qed.

(** ** C50 *)
Lemma C50_comparison_fact : forall (w : hpwh R) s d dp isAbs c hts b T, averageT_distribution d (w_tank w) = Ok T ->
  exists r, l_met w (TempLogic s d dp isAbs c hts b) = Ok r /\
    (r = true <-> let threshold := if isAbs then dp else w_setpoint w - dp in
                  match c with CLess => T < threshold | CGreater => T > threshold end).
Proof.
  intros w s d dp isAbs c hts b T E. unfold l_met. cbn [l_tankValue]. rewrite E. cbn [obind l_cmp compare l_comparison].
  eexists. split; [reflexivity|]. num_simpl. cbv zeta. destruct c; cbn [compare]; num_simpl; destruct isAbs; apply Rltb_true.
Qed.
Lemma C50_setpoint_fact : forall (w : hpwh R) s d dp c hts b sp sp', sp <= sp' ->
  (l_met (set_w_setpoint sp w) (TempLogic s d dp false CLess hts b) = Ok true -> l_met (set_w_setpoint sp' w) (TempLogic s d dp false CLess hts b) = Ok true) /\
  (l_met (set_w_setpoint sp w) (TempLogic s d dp false CGreater hts b) = Ok false -> l_met (set_w_setpoint sp' w) (TempLogic s d dp false CGreater hts b) = Ok false) /\
  l_met (set_w_setpoint sp w) (TempLogic s d dp true c hts b) = l_met (set_w_setpoint sp' w) (TempLogic s d dp true c hts b).
Proof.
  intros w s d dp c hts b sp sp' Hs. unfold l_met. cbn [l_tankValue l_cmp l_comparison compare]. wsimpl.
  destruct (averageT_distribution d (w_tank w)) as [T| | |]; cbn [obind]; splits; auto; try discriminate; num_simpl; intros E; assert (E1 := f_equal (fun o => match o with Ok r => r | _ => true end) E); cbn beta iota in E1; f_equal.
  - apply Rltb_true in E1. apply Rltb_true. lra.
  - apply Rltb_false in E1. apply Rltb_false. lra.
Qed.
Definition onLike (l : logic R) : Prop := exists s d dp isAbs hts b, l = TempLogic s d dp isAbs CLess hts b.
Definition offLike (l : logic R) : Prop := exists s d dp isAbs hts b, l = TempLogic s d dp isAbs CGreater hts b.
Lemma value_sp (w : hpwh R) sp sp' l : onLike l \/ offLike l -> l_tankValue (set_w_setpoint sp w) l = l_tankValue (set_w_setpoint sp' w) l.
Proof. intros [HH|HH]; destruct HH as (s & d & dp & isAbs & hts & b & ->); reflexivity. Qed.
Lemma cmp_sp (w : hpwh R) sp sp' l : sp <= sp' -> onLike l \/ offLike l -> l_comparison (set_w_setpoint sp w) l <= l_comparison (set_w_setpoint sp' w) l.
Proof. intros Hs [HH|HH]; destruct HH as (s & d & dp & isAbs & hts & b & ->); cbn [l_comparison]; wsimpl; destruct isAbs; num_simpl; lra. Qed.
Lemma on_cmp l : onLike l -> l_cmp l = CLess.
Proof. intros (s & d & dp & isAbs & hts & b & ->). reflexivity. Qed.
Lemma off_cmp l : offLike l -> l_cmp l = CGreater.
Proof. intros (s & d & dp & isAbs & hts & b & ->). reflexivity. Qed.
Lemma wants_mono (w : hpwh R) stby sp sp' : sp <= sp' -> (forall l, stby = Some l -> onLike l /\ exists v, l_tankValue w l = Ok v) -> forall ls, Forall onLike ls ->
  wantsHeat (set_w_setpoint sp w) stby ls = Ok true -> wantsHeat (set_w_setpoint sp' w) stby ls = Ok true.
Proof.
  intros Hs HSB. induction ls as [|l ls IH]; intros HA; cbn [wantsHeat]; [discriminate|]. inversion HA as [|x y Hl Hls]; subst x y. specialize (IH Hls).
  unfold l_met. rewrite (value_sp w sp sp' l) by auto. destruct (l_tankValue (set_w_setpoint sp' w) l) as [v| | |]; cbn [obind]; try discriminate.
  pose proof (cmp_sp w sp sp' l Hs (or_introl Hl)) as Hc. rewrite (on_cmp _ Hl). cbn [compare]. num_simpl.
  assert (HSB' : forall s, stby = Some s -> exists v, l_tankValue (set_w_setpoint sp w) s = Ok v /\ l_tankValue (set_w_setpoint sp' w) s = Ok v /\
    l_comparison (set_w_setpoint sp w) s <= l_comparison (set_w_setpoint sp' w) s).
  { intros s0 Es. destruct (HSB _ Es) as (X & v0 & Ev). exists v0. splits; [| |apply cmp_sp; auto];
      destruct X as (s & d & dp & isAbs & hts & b & ->); exact Ev. }
  set (c := l_comparison (set_w_setpoint sp w) l) in *. set (c' := l_comparison (set_w_setpoint sp' w) l) in *.
  destruct stby as [s|].
  - destruct (HSB' _ eq_refl) as (vs & E1 & E2 & E3). rewrite E1, E2.
    destruct (l_checksStandby l); cbn [obind]; num_simpl;
      repeat match goal with |- context [Rltb ?a ?b] => let E := fresh in destruct (Rltb a b) eqn:E; bcase; cbn [obind] end; auto; try discriminate; exfalso; lra.
  - repeat match goal with |- context [Rltb ?a ?b] => let E := fresh in destruct (Rltb a b) eqn:E; bcase; cbn [obind] end; auto; try discriminate; exfalso; lra.
Qed.
Lemma anyMet_mono (w : hpwh R) sp sp' : sp <= sp' -> forall ls acc, Forall offLike ls ->
  anyMet (set_w_setpoint sp w) ls acc = Ok false -> anyMet (set_w_setpoint sp' w) ls acc = Ok false.
Proof.
  intros Hs. induction ls as [|l ls IH]; intros acc HA; cbn [anyMet]; auto. inversion HA as [|x y Hl Hls]; subst x y.
  unfold l_met. rewrite (value_sp w sp sp' l) by auto. destruct (l_tankValue (set_w_setpoint sp' w) l) as [v| | |]; cbn [obind]; try discriminate.
  pose proof (cmp_sp w sp sp' l Hs (or_intror Hl)) as Hc. rewrite (off_cmp _ Hl). cbn [compare]. num_simpl.
  assert (HT : forall ls, anyMet (set_w_setpoint sp w) ls true <> Ok false).
  { induction ls0 as [|l0 ls0 IH0]; cbn [anyMet]; [discriminate|]. destruct (l_met _ _); cbn [obind]; try discriminate. cbn [orb]. auto. }
  destruct (Rltb (l_comparison (set_w_setpoint sp w) l) v) eqn:E1; bcase.
  - rewrite orb_true_r. intros E. destruct (HT _ E).
  - replace (Rltb (l_comparison (set_w_setpoint sp' w) l) v) with false by (symmetry; apply Rltb_false; lra). apply IH; auto.
Qed.
Lemma C50_source_fact : forall (w : hpwh R) h sp sp', sp <= sp' ->
  Forall onLike (h_turnOn h) -> Forall offLike (h_shutOff h) ->
  (forall l, h_standby h = Some l -> onLike l /\ exists v, l_tankValue w l = Ok v) ->
  shouldHeat (set_w_setpoint sp w) h = Ok true -> shouldHeat (set_w_setpoint sp' w) h = Ok true.
Proof.
  intros w h sp sp' Hs H1 H2 H3. unfold shouldHeat.
  destruct (wantsHeat (set_w_setpoint sp w) _ _) as [[|]| | |] eqn:E1; cbn [obind]; try discriminate.
  rewrite (wants_mono w _ sp sp' Hs H3 _ H1 E1). cbn [obind]. unfold shutsOff. wsimpl.
  destruct (t_Ts (w_tank w)) as [|x r]; cbn [obind]; try discriminate. num_simpl.
  destruct (Rleb sp x) eqn:E2; bcase; cbn [obind negb]; [discriminate|].
  replace (Rleb sp' x) with false by (symmetry; apply Rleb_false; lra).
  destruct (anyMet (set_w_setpoint sp w) _ _) as [[|]| | |] eqn:E3; cbn [obind negb]; try discriminate.
  rewrite (anyMet_mono w sp sp' Hs _ _ H2 E3). auto.
Qed.
Lemma C50_example_fact : let w := exUnit (T:=R) [20; 20; 20; 20] in
  averageT_distribution (mkdist DTop []) (w_tank w) = Ok 20 /\ w_setpoint w = 55 /\
  l_met w (TempLogic "top" (mkdist DTop []) 10 false CLess false false) = Ok true /\
  l_met w (TempLogic "top" (mkdist DTop []) 15 true CLess false false) = Ok false.
Proof.
  cbv zeta. split; [reflexivity|]. split; [reflexivity|]. unfold l_met. cbn. split; f_equal; [apply Rltb_true; lra|apply Rltb_false; lra].
Qed.
