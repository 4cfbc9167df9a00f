(** Proofs of the theorems stated in PropsConfig.v: Properties of the configuration check *)

From Coq Require Import ZArith String List Bool Reals Lra Lia Floats Sorting.Sorted.
From Verif Require Import Num FNum Base Units Utils Types TankM Logic HeatSrc Step Setters Config Spec SpecState SpecDist SpecStep.
From Verif Require Import RList FrameProofs SimFrame MixProofs DistProofs TankFacts ControlProofs EnergyFacts SettersFacts SourcesFacts Example.
Import ListNotations.
Local Open Scope R_scope.
(** ** C59 *)
(** a weighted distribution with ascending positive heights and some positive weight *)
Definition validWeights (d : wdist R) : Prop := StronglySorted Rlt (0 :: map fst d) /\ Exists (fun p => 0 < snd p) d.
Definition validLogic (l : logic R) : Prop :=
  match l with
  | TempLogic _ d _ _ _ _ _ => d_type d = DWeighted -> validWeights (d_w d)
  | SoCLogic _ target _ _ _ _ _ _ => 0 <= target
  end.
(** source [i] is started by its own logics or backs up a source (the first one doing so) that has some *)
Definition startable (hs : list (hsrc R)) (i : nat) (h : hsrc R) : Prop :=
  h_turnOn h <> [] \/
  exists j p, nth_error hs j = Some p /\ h_backup p = Some i /\ h_turnOn p <> [] /\
    forall k q, (k < j)%nat -> nth_error hs k = Some q -> h_backup q <> Some i.
Record soundCompressor (n : nat) (h : hsrc R) : Prop := {
  sc_defrost : h_doDefrost h = true -> (3 <= length (h_defrost h))%nat /\ h_config h = External;
  sc_external : h_config h = External -> length (h_shutOff h) = 1%nat /\ (0 <= h_extOut h < Z.of_nat n)%Z /\ (0 <= h_extIn h < Z.of_nat n)%Z;
  sc_integrated : h_config h <> External -> h_shxPump h = 0
}.
Record soundSource (n : nat) (hs : list (hsrc R)) (i : nat) (h : hsrc R) : Prop := {
  ss_start : startable hs i h;
  ss_on : Forall validLogic (h_turnOn h);
  ss_off : Forall validLogic (h_shutOff h);
  ss_dist : validWeights (h_dist h);
  ss_air : 0 < h_airflow h <= 1;
  ss_comp : h_type h = TCompressor -> soundCompressor n h
}.
Record acceptable (w : hpwh R) : Prop := {
  ac_sources : w_hs w <> [] \/ w_storage w = true;
  ac_each : forall i h, nth_error (w_hs w) i = Some h -> soundSource (length (t_Ts (w_tank w))) (w_hs w) i h;
  ac_sizing : (0 <= w_compIx w)%Z -> exists aqua use, getSizingFractions w = Ok (aqua, use) /\ 1 - use <= aqua;
  ac_setpoint : exists m, isNewSetpointPossible (w_setpoint w) U_C w = Ok (true, m);
  ac_UA : 0 <= t_UA (w_tank w);
  ac_hx : t_hxEff (w_tank w) <= 1
}.
Lemma complain_nil b m : complain b m = [] <-> b = false.
Proof. destruct b; cbn; split; congruence. Qed.
Lemma app_nil_iff {A} (a b : list A) : a ++ b = [] <-> a = [] /\ b = [].
Proof. split; [apply app_eq_nil|]. intros [-> ->]. auto. Qed.
Lemma concat_nil {A} (f : A -> bool) m (l : list A) : concat (map (fun x => complain (f x) m) l) = [] <-> Forall (fun x => f x = false) l.
Proof. induction l as [|x l IH]; cbn [map concat]; [split; auto|]. rewrite app_nil_iff, complain_nil, IH. split; [intros [? ?]; constructor; auto|]. intros HF; inversion HF; auto. Qed.
Lemma valid_loop (d : wdist R) : forall hw so pr, fold_left (fun '(hasW, sorted, prevH) '(h, wt) => ((hasW || Rltb 0 wt)%bool, (sorted && Rltb prevH h)%bool, h)) d (hw, so, pr) =
  ((hw || existsb (fun p => Rltb 0 (snd p)) d)%bool, (so && forallb (fun p => Rltb (fst p) (snd p)) (combine (pr :: map fst d) (map fst d)))%bool, last (map fst d) pr).
Proof.
  induction d as [|[h x] d IH]; intros hw so pr; cbn [fold_left existsb map combine forallb last fst snd].
  - rewrite orb_false_r, andb_true_r. reflexivity.
  - rewrite IH, <- orb_assoc, <- andb_assoc. f_equal. clear. revert h. induction (map fst d) as [|a l IHl]; intros; auto. cbn [last]. destruct l; auto.
Qed.
Lemma sorted_pairs l : forall pr, forallb (fun p => Rltb (fst p) (snd p)) (combine (pr :: l) l) = true <-> StronglySorted Rlt (pr :: l).
Proof.
  induction l as [|a l IH]; intros pr; cbn [combine forallb fst snd].
  - split; auto. intros _. constructor; constructor.
  - change (match l with [] => [] | y :: tl' => (a, y) :: combine l tl' end) with (combine (a :: l) l) || idtac. rewrite andb_true_iff, IH, Rltb_true. split.
    + intros [A B]. constructor; auto. constructor; auto. inversion B; subst. rewrite Forall_forall in *. intros x HX. specialize (H2 x HX). lra.
    + intros HS. inversion HS; subst. inversion H2; subst. auto.
Qed.
Lemma wd_valid_iff (d : wdist R) : wd_isValid d = true <-> validWeights d.
Proof.
  unfold wd_isValid, validWeights. num_simpl. pose proof (valid_loop d false true 0) as E. cbn [orb andb] in E. rewrite E.
  rewrite !andb_true_iff, sorted_pairs. split.
  - intros [[_ A] B]. split; auto. apply Exists_exists. apply existsb_exists in A. destruct A as (p & P1 & P2). exists p. split; auto. apply Rltb_true; auto.
  - intros [A B]. split; auto. split; [destruct B; auto|]. apply existsb_exists. apply Exists_exists in B. destruct B as (p & P1 & P2). exists p. split; auto. apply Rltb_true; auto.
Qed.
Lemma l_valid_iff (l : logic R) : l_isValid l = true <-> validLogic l.
Proof.
  destruct l as [s d dp a c h b|s dp hy tm cm m c b]; cbn [l_isValid validLogic].
  - unfold dist_isValid. destruct (d_type d); [rewrite wd_valid_iff; split; auto|split; auto; discriminate|split; auto; discriminate].
  - num_simpl. rewrite negb_true_iff, Rltb_false. split; lra.
Qed.
Lemma parent_iff i : forall (hs : list (hsrc R)), match findParent i hs with None => True | Some p => h_turnOn p = [] end <->
  ~ exists j p, nth_error hs j = Some p /\ h_backup p = Some i /\ h_turnOn p <> [] /\ forall k q, (k < j)%nat -> nth_error hs k = Some q -> h_backup q <> Some i.
Proof.
  induction hs as [|h hs IH].
  - cbn. split; auto. intros _ (j & p & E & _). destruct j; discriminate.
  - cbn [findParent]. assert (D : h_backup h = Some i \/ h_backup h <> Some i) by (destruct (h_backup h) as [b|]; [destruct (Nat.eq_dec b i); [left|right]; congruence|right; congruence]).
    destruct D as [D|D].
    + rewrite D, Nat.eqb_refl. split.
      * intros E (j & p & E1 & E2 & E3 & E4). destruct j; [cbn in E1; congruence|]. apply (E4 0%nat h); auto; lia.
      * intros HN. destruct (h_turnOn h) eqn:ET; auto. exfalso. apply HN. exists 0%nat, h. split; auto. split; auto. split; [congruence|]. intros; lia.
    + replace (match h_backup h with Some b => if Nat.eqb b i then Some h else findParent i hs | None => findParent i hs end) with (findParent i hs)
        by (destruct (h_backup h) as [b|]; auto; destruct (Nat.eqb_spec b i); auto; congruence).
      rewrite IH. split; intros HN (j & p & E1 & E2 & E3 & E4); apply HN.
      * destruct j; [cbn in E1; congruence|]. exists j, p. split; auto. split; auto. split; auto. intros k q HK HQ. apply (E4 (S k) q); auto; lia.
      * exists (S j), p. split; auto. split; auto. split; auto. intros k q HK HQ. destruct k; [cbn in HQ; congruence|]. apply (E4 k q); auto; lia.
Qed.
Lemma start_iff (hs : list (hsrc R)) i h : (noLogic (h_turnOn h) && match findParent i hs with None => true | Some p => noLogic (h_turnOn p) end)%bool = false <-> startable hs i h.
Proof.
  pose proof (parent_iff i hs) as PI. unfold startable. destruct (h_turnOn h) as [|l r]; cbn [noLogic andb]; [|split; auto; intros _; left; discriminate].
  split.
  - intros E. right. destruct (findParent i hs) as [p|] eqn:EP; [|discriminate].
    destruct (h_turnOn p) as [|l r] eqn:ET; [discriminate|]. clear E.
    (* the parent found has logics *)
    assert (HF : forall hs, findParent i hs = Some p -> exists j, nth_error hs j = Some p /\ h_backup p = Some i /\ forall k q, (k < j)%nat -> nth_error hs k = Some q -> h_backup q <> Some i).
    { clear - i. induction hs as [|x hs IH]; [discriminate|]. cbn [findParent]. intros E. destruct (h_backup x) as [b|] eqn:EB.
      - destruct (Nat.eqb_spec b i) as [->|N].
        + inversion E; subst. exists 0%nat. split; auto. split; auto. intros; lia.
        + destruct (IH E) as (j & J1 & J2 & J3). exists (S j). split; auto. split; auto. intros k q HK HQ. destruct k; [cbn in HQ; congruence|]. apply (J3 k q); auto; lia.
      - destruct (IH E) as (j & J1 & J2 & J3). exists (S j). split; auto. split; auto. intros k q HK HQ. destruct k; [cbn in HQ; congruence|]. apply (J3 k q); auto; lia. }
    destruct (HF hs EP) as (j & J1 & J2 & J3). exists j, p. split; auto. split; auto. split; auto. congruence.
  - intros [HN|HE]; [congruence|]. destruct (findParent i hs) as [p|] eqn:EP.
    + destruct (h_turnOn p) eqn:ET; auto. exfalso. apply (proj1 PI); auto.
    + exfalso. apply (proj1 PI); auto.
Qed.
Lemma comp_iff n (h : hsrc R) : checkCompressor n h = [] <-> soundCompressor n h.
Proof.
  unfold checkCompressor. rewrite app_nil_iff. unfold badPort. num_simpl. split.
  - intros [A B]. constructor.
    + intros E. rewrite E in A. apply app_nil_iff in A. destruct A as [A1 A2]. apply complain_nil in A1, A2. apply Nat.ltb_ge in A1. destruct (h_config h); auto; discriminate.
    + intros E. rewrite E in B. apply app_nil_iff in B. destruct B as [B1 B]. apply app_nil_iff in B. destruct B as [B2 B3]. apply complain_nil in B1, B2, B3.
      apply negb_false_iff, Nat.eqb_eq in B1. apply orb_false_iff in B2, B3. rewrite !Z.ltb_ge in *. split; auto. lia.
    + intros E. assert (B' : nneqb (h_shxPump h) 0 = false) by (destruct (h_config h); try congruence; apply complain_nil in B; auto). unfold nneqb in B'. num_simpl. apply negb_false_iff, Reqb'_true in B'. auto.
  - intros [A B C]. split.
    + destruct (h_doDefrost h); auto. destruct (A eq_refl) as [A1 A2]. rewrite A2. apply app_nil_iff. split; apply complain_nil; auto. apply Nat.ltb_ge; auto.
    + assert (D : h_config h = External \/ h_config h <> External) by (destruct (h_config h); [right|right|left]; congruence). destruct D as [D|D].
      * rewrite D. destruct (B D) as (B1 & B2 & B3). rewrite !app_nil_iff, !complain_nil. split; [rewrite B1; auto|]. split; apply orb_false_iff; rewrite !Z.ltb_ge; lia.
      * specialize (C D). assert (nneqb (h_shxPump h) 0 = false) by (unfold nneqb; num_simpl; apply negb_false_iff, Reqb'_true; auto). destruct (h_config h); try congruence; apply complain_nil; auto.
Qed.
Lemma source_iff (w : hpwh R) i h : checkSource w i h = [] <-> soundSource (length (t_Ts (w_tank w))) (w_hs w) i h.
Proof.
  unfold checkSource. rewrite !app_nil_iff, !complain_nil, !concat_nil, start_iff. rewrite negb_false_iff, wd_valid_iff, orb_false_iff.
  assert (FV : forall ls : list (logic R), Forall (fun l => negb (l_isValid l) = false) ls <-> Forall validLogic ls).
  { intros ls. rewrite !Forall_forall. split; intros HF l HL; specialize (HF l HL); [apply negb_false_iff in HF; apply l_valid_iff; auto|apply negb_false_iff, l_valid_iff; auto]. }
  rewrite !FV. num_simpl. rewrite Rltb_false, Rleb_false. unfold numNodes. split.
  - intros (A & B & C & D & (E1 & E2) & G). constructor; auto; try lra. intros HT. rewrite HT in G. apply comp_iff; auto.
  - intros [A B C D E G]. split; auto. split; auto. split; auto. split; auto. split; [lra|]. destruct (h_type h); auto. apply comp_iff; auto.
Qed.
Lemma sources_iff (w : hpwh R) : forall hs i, checkSources w i hs = [] <-> forall k h, nth_error hs k = Some h -> checkSource w (i + k) h = [].
Proof.
  induction hs as [|h hs IH]; intros i; cbn [checkSources].
  - split; auto. intros _ k h. destruct k; discriminate.
  - rewrite app_nil_iff, IH. split.
    + intros [A B] [|k] x HX; [inversion HX; subst; rewrite Nat.add_0_r; auto|]. replace (i + S k)%nat with (S i + k)%nat by lia. apply B; auto.
    + intros HA. split; [specialize (HA 0%nat h eq_refl); rewrite Nat.add_0_r in HA; auto|]. intros k x HX. replace (S i + k)%nat with (i + S k)%nat by lia. apply HA; auto.
Qed.
Lemma throwLast_ok ms : throwLast ms = Ok tt <-> ms = [].
Proof. unfold throwLast. destruct (rev ms) as [|m r] eqn:E. - split; auto. intros _. rewrite <- (rev_involutive ms), E. auto. - split; [discriminate|]. intros ->. discriminate. Qed.
Lemma throwLast_err ms : ms <> [] -> exists e, throwLast ms = Err e /\ In e ms.
Proof. intros HN. unfold throwLast. destruct (rev ms) as [|m r] eqn:E; [exfalso; apply HN; rewrite <- (rev_involutive ms), E; auto|]. exists m. split; auto. apply in_rev. rewrite E. left; auto. Qed.

Lemma C59_accepts_iff_fact : forall w : hpwh R, checkInputs w = Ok tt <-> acceptable w.
Proof.
  intros w. unfold checkInputs. cbv zeta.
  assert (SP : forall b, (exists m, setpointPossible (w_setpoint w) w = Ok (b, m)) <-> (exists m, isNewSetpointPossible (w_setpoint w) U_C w = Ok (b, m))).
  { intros b. unfold isNewSetpointPossible, tempToC. cbn [obind]. destruct (setpointPossible (w_setpoint w) w) as [[b' m']|e|e|] eqn:E; cbn [obind tempFromC]; try (split; intros (? & ?); discriminate).
    split; intros (m & Hm); inversion Hm; eauto. }
  split.
  - intros E. destruct (if hasCompressor w then _ else _) as [m3|e|e|] eqn:E3; cbn [obind] in E; try discriminate.
    destruct (setpointPossible (w_setpoint w) w) as [[ok mx]|e|e|] eqn:ES; cbn [obind] in E; try discriminate.
    apply throwLast_ok in E. rewrite !app_nil_iff, !complain_nil in E. destruct E as (A & B & -> & D & F & G). num_simpl. constructor.
    + destruct (w_hs w); [right; apply negb_false_iff; auto|left; discriminate].
    + intros i h HI. apply source_iff. apply (proj1 (sources_iff w (w_hs w) 0) B i h HI).
    + intros HC. unfold hasCompressor in E3. rewrite (proj2 (Z.leb_le _ _) HC) in E3. destruct (getSizingFractions w) as [[a u]|e|e|] eqn:EG; cbn [obind] in E3; try discriminate.
      exists a, u. split; auto. inversion E3 as [E4]. apply complain_nil in E4. num_simpl. bcase. lra.
    + apply SP. apply negb_false_iff in D. subst. eauto.
    + bcase. lra.
    + bcase. lra.
  - intros [A B C D E F]. apply SP in D. destruct D as (m & D).
    assert (E3 : (if hasCompressor w then obind (getSizingFractions w) (fun '(aqua, use) => Ok (complain (nltb aqua (nsub (nofZ 1) use)) "The off logic is beneath the on logic.")) else Ok []) = Ok []).
    { unfold hasCompressor. destruct (Z.leb_spec 0 (w_compIx w)) as [HC|HC]; auto. destruct (C HC) as (a & u & -> & HL). cbn [obind]. f_equal. apply complain_nil. num_simpl. apply Rltb_false. lra. }
    rewrite E3, D. cbn [obind]. apply throwLast_ok. rewrite !app_nil_iff, !complain_nil. num_simpl.
    split; [destruct (w_hs w); auto; destruct A as [A|A]; [congruence|rewrite A; auto]|].
    split; [apply sources_iff; intros k h HK; apply source_iff; apply B; auto|]. split; auto. split; auto. split; apply Rltb_false; auto.
Qed.
Lemma sizing_total (w : hpwh R) : (exists e, getSizingFractions w = Err e) \/ (exists a u, getSizingFractions w = Ok (a, u)) \/ (hasCompressor w = true /\ nth_error (w_hs w) (Z.to_nat (w_compIx w)) = None).
Proof.
  unfold getSizingFractions, noCompressor. destruct (hasCompressor w) eqn:EH; cbn [negb]; [|left; eauto]. destruct (w_usesSoC w); [left; eauto|].
  unfold compressor. destruct (Z.ltb_spec (w_compIx w) 0); [unfold hasCompressor in EH; apply Z.leb_le in EH; lia|].
  destruct (nth_error (w_hs w) (Z.to_nat (w_compIx w))) as [h|] eqn:EN; cbn [obind]; [right; left; eauto|right; right; auto].
Qed.
Lemma derived_comp_exists (w : hpwh R) : let d := calcDerivedValues w in hasCompressor d = true -> nth_error (w_hs d) (Z.to_nat (w_compIx d)) <> None.
Proof.
  cbv zeta. intros HC HN. pose proof (C56_compressor_index_fact w) as HX. cbv zeta in HX. unfold hasCompressor in HC. apply Z.leb_le in HC.
  destruct HX as [[HX _]|(k & HX & (h & HK & _) & _)]; [lia|]. rewrite HX, Nat2Z.id in HN. congruence.
Qed.

Lemma C59_rejects_fact : forall w : hpwh R, let d := calcDerivedValues w in ~ acceptable d -> exists e, checkInputs d = Err e.
Proof.
  intros w. cbv zeta. intros HN. set (d := calcDerivedValues w) in *.
  assert (HD : hasCompressor d = true -> nth_error (w_hs d) (Z.to_nat (w_compIx d)) <> None) by apply derived_comp_exists. clearbody d.
  assert (HNE : checkInputs d <> Ok tt) by (intros E; apply HN, C59_accepts_iff_fact; auto). revert HNE. unfold checkInputs. cbv zeta.
  assert (C3 : (exists e, (if hasCompressor d then obind (getSizingFractions d) (fun '(aqua, use) => Ok (complain (nltb aqua (nsub (nofZ 1) use)) "The off logic is beneath the on logic.")) else Ok []) = Err e) \/
     (exists l, (if hasCompressor d then obind (getSizingFractions d) (fun '(aqua, use) => Ok (complain (nltb aqua (nsub (nofZ 1) use)) "The off logic is beneath the on logic.")) else Ok []) = Ok l)).
  { destruct (hasCompressor d) eqn:EH; [|right; eauto]. destruct (sizing_total d) as [(e & ->)|[(a & u & ->)|(_ & E)]]; [left; cbn; eauto|right; cbn; eauto|]. exfalso. apply HD; auto. }
  destruct C3 as [(e & ->)|(l & ->)]; cbn [obind]; [eauto|].
  assert (CS : exists r, setpointPossible (w_setpoint d) d = Ok r).
  { unfold setpointPossible. destruct (w_setFixed d); [eauto|]. destruct (hasCompressor d) eqn:EH.
    - destruct (nth_error (w_hs d) (Z.to_nat (w_compIx d))) eqn:EN; [|exfalso; apply HD; auto]. cbn [obind]. destruct (Z.leb 0 (w_lowIx d)); [eauto|]. destruct (_ && _)%bool; eauto.
    - cbn [obind]. destruct (Z.leb 0 (w_lowIx d)); [eauto|]. destruct (_ && _)%bool; eauto. }
  destruct CS as ([ok m] & ->). cbn [obind]. match goal with |- throwLast ?l <> _ -> _ => generalize l end. intros ms HT.
  destruct (throwLast_err ms) as (e & E & _); [intros ->; apply HT; auto|eauto].
Qed.

Lemma C59_soc_rejected_fact : forall w : hpwh R, w_usesSoC w = true -> (0 <= w_compIx w)%Z -> checkInputs w = Err "Current model uses SOC control logic".
Proof.
  intros w HS HC. unfold checkInputs. cbv zeta. unfold hasCompressor. rewrite (proj2 (Z.leb_le _ _) HC). unfold getSizingFractions, hasCompressor. rewrite (proj2 (Z.leb_le _ _) HC), HS. reflexivity.
Qed.
Definition finish (b : bool) (w : hpwh R) : hpwh R := set_w_heating b (set_w_tank (set_t_Ts (map (fun _ => w_setpoint w) (t_Ts (w_tank w))) (w_tank w)) w).
Lemma configure_inv p (w w' : hpwh R) : configure p w = (Ok tt, w') -> exists a, adjustModel p w = (Ok tt, a) /\ let d := calcDerivedValues a in
  checkInputs d = Ok tt /\ w' = finish (existsb (fun h => h_on h) (w_hs d)) d.
Proof.
  intros E. unfold configure in E. apply bind_inv in E. destruct E as ([] & a & E1 & E). exists a. split; auto. cbv zeta.
  apply bind_inv in E. destruct E as ([] & d & E2 & E). inversion E2; subst d; clear E2. apply bind_inv in E. destruct E as (d & d' & E2 & E). inversion E2; subst d d'; clear E2.
  generalize dependent (calcDerivedValues a). intros d E. apply bind_inv in E. destruct E as ([] & d' & E2 & E). unfold lift in E2. injection E2 as E2 <-. split; auto.
  apply bind_inv in E. destruct E as ([] & d' & E3 & E). unfold resetTankToSetpoint in E3. apply bind_inv in E3. destruct E3 as (x & y & E4 & E3). inversion E4; subst x y; clear E4.
  apply onTank_inv in E3. destruct E3 as (t & E3 & ->). unfold setNodeT, modify in E3. injection E3 as <-. unfold modify in E. injection E as <-. unfold finish. destruct d. reflexivity.
Qed.
Lemma sizing_finish b (d : hpwh R) : getSizingFractions (finish b d) = getSizingFractions d.
Proof.
  assert (HL : forall l, l_nodeWeightAvgFract (finish b d) l = l_nodeWeightAvgFract d l).
  { intros l. unfold l_nodeWeightAvgFract, l_comparison, finish, numNodes. wsimpl. rewrite map_length. reflexivity. }
  unfold getSizingFractions, aquaFract, useFract. replace (hasCompressor (finish b d)) with (hasCompressor d) by reflexivity. replace (w_usesSoC (finish b d)) with (w_usesSoC d) by reflexivity.
  replace (compressor (finish b d)) with (compressor d) by reflexivity. destruct (negb (hasCompressor d)); auto. destruct (w_usesSoC d); auto. destruct (compressor d) as [h|e|e|]; cbn [obind]; auto.
  assert (FE : forall A (f g : A -> logic R -> A) l x, (forall a y, f a y = g a y) -> fold_left f l x = fold_left g l x) by (intros A f g l; induction l; cbn; intros; auto; rewrite H; auto).
  rewrite (FE _ _ (fun a l => let x := l_nodeWeightAvgFract d l in if nltb x a then x else a)) by (intros; rewrite HL; auto).
  rewrite (FE _ _ (fun a l => let x := if (String.eqb (l_desc l) "large draw" || String.eqb (l_desc l) "larger draw")%bool then nofZ 1 else nsub (nofZ 1) (l_nodeWeightAvgFract d l) in if nltb x a then x else a) (h_shutOff h)) by (intros; rewrite HL; auto).
  reflexivity.
Qed.
Lemma acceptable_finish b (d : hpwh R) : acceptable d -> acceptable (finish b d).
Proof.
  intros [A B C D E F]. constructor; auto.
  - intros i h HI. specialize (B i h HI). unfold finish. wsimpl. rewrite map_length. auto.
  - rewrite sizing_finish. auto.
Qed.

Lemma onFirst_inv f (w a : hpwh R) : onFirstShutOff f w = (Ok tt, a) -> exists i h l r, w_compIx w = Z.of_nat i /\ nth_error (w_hs w) i = Some h /\ h_shutOff h = l :: r /\
  a = set_w_hs (updHS (w_hs w) i (set_h_shutOff (f l :: r))) w.
Proof.
  intros E. unfold onFirstShutOff in E. apply bind_inv in E. destruct E as (x & y & E0 & E). inversion E0; subst x y; clear E0.
  destruct (Z.ltb_spec (w_compIx w) 0) as [|HC]; [discriminate|]. apply bind_inv in E. destruct E as (h & y & E0 & E). apply getHS_inv in E0. destruct E0 as (-> & HN).
  destruct (h_shutOff h) as [|l r] eqn:ES; [discriminate|]. unfold modHS, modify in E. injection E as <-. exists (Z.to_nat (w_compIx w)), h, l, r. split; [lia|]. auto.
Qed.
Lemma adjust_keeps p (w a : hpwh R) : adjustModel p w = (Ok tt, a) -> w_setpoint a = w_setpoint w /\ w_tank a = w_tank w.
Proof.
  destruct p; cbn [adjustModel]; intros E.
  - apply onFirst_inv in E. destruct E as (i & h & l & r & _ & _ & _ & ->). auto.
  - apply bind_inv in E. destruct E as ([] & y & E0 & E). unfold modify in E0. injection E0 as <-. apply onFirst_inv in E. destruct E as (i & h & l & r & _ & _ & _ & ->). auto.
  - apply onFirst_inv in E. destruct E as (i & h & l & r & _ & _ & _ & ->). auto.
  - unfold modify in E. injection E as <-. auto.
  - apply bind_inv in E. destruct E as ([] & y & E0 & E). unfold modify in E0. injection E0 as <-.
    apply bind_inv in E. destruct E as (h2 & y & E0 & E). apply getHS_inv in E0. destruct E0 as (-> & _).
    apply bind_inv in E. destruct E as ([] & y & E0 & E). unfold modHS, modify in E0. injection E0 as <-.
    apply bind_inv in E. destruct E as (h0 & y & E0 & E). apply getHS_inv in E0. destruct E0 as (-> & _).
    apply bind_inv in E. destruct E as ([] & y & E0 & E). unfold modHS, modify in E0. injection E0 as <-.
    apply onFirst_inv in E. destruct E as (i & h & l & r & _ & _ & _ & ->). auto.
  - unfold ret in E. injection E as <-. auto.
Qed.
Lemma derived_keeps (w : hpwh R) : w_setpoint (calcDerivedValues w) = w_setpoint w /\ t_Ts (w_tank (calcDerivedValues w)) = t_Ts (w_tank w).
Proof. pose proof (C56_derived_only_fact w) as HD. cbv zeta in HD. tauto. Qed.
Lemma size_comm x (t : tank R) : calcSizeConstants (set_t_Ts (map (fun _ => x) (t_Ts t)) t) = set_t_Ts (map (fun _ => x) (t_Ts t)) (calcSizeConstants t).
Proof.
  rewrite !size_form. replace (t_volume (set_t_Ts (map (fun _ => x) (t_Ts t)) t)) with (t_volume t) by reflexivity. replace (t_hxEff (set_t_Ts (map (fun _ => x) (t_Ts t)) t)) with (t_hxEff t) by reflexivity.
  replace (numNodes (set_t_Ts (map (fun _ => x) (t_Ts t)) t)) with (numNodes t) by (unfold numNodes; wsimpl; rewrite map_length; auto).
  generalize (map (fun _ => x) (t_Ts t)). intros Ts. unfold sized, putSize. cbv zeta. destruct t. reflexivity.
Qed.
Lemma putDerived_finish b x Ts r t c l hi v hs (w : hpwh R) : putDerived r (set_t_Ts Ts t) c l hi v hs (set_w_heating b (set_w_tank x w)) = set_w_heating b (set_w_tank (set_t_Ts Ts t) (putDerived r t c l hi v hs w)).
Proof. unfold putDerived. generalize (set_t_Ts Ts t). intros t'. destruct w. reflexivity. Qed.
Lemma derived_finish b (d : hpwh R) : calcDerivedValues (finish b d) = finish b (calcDerivedValues d).
Proof.
  destruct (derived_keeps d) as (K1 & K2). unfold finish at 2. rewrite K1, K2. rewrite !derived_form.
  assert (EN : numNodes (w_tank (finish b d)) = numNodes (w_tank d)) by (unfold numNodes, finish; wsimpl; rewrite map_length; auto). rewrite EN.
  replace (w_hs (finish b d)) with (w_hs d) by reflexivity. generalize (map (deriveHS (numNodes (w_tank d))) (w_hs d)). intros hs.
  replace (w_tank (finish b d)) with (set_t_Ts (map (fun _ => w_setpoint d) (t_Ts (w_tank d))) (w_tank d)) by reflexivity. rewrite size_comm.
  destruct (derivedOf_keeps hs (calcSizeConstants (w_tank d)) d) as (-> & _).
  unfold derivedOf. cbv zeta. unfold finish. rewrite putDerived_finish. reflexivity.
Qed.

Lemma C59_configured_fact : forall p (w w' : hpwh R), configure p w = (Ok tt, w') ->
  acceptable w' /\ Forall (fun t => t = w_setpoint w') (t_Ts (w_tank w')) /\ length (t_Ts (w_tank w')) = length (t_Ts (w_tank w)) /\
  w_setpoint w' = w_setpoint w /\ (w_heating w' = true <-> exists h, In h (w_hs w') /\ h_on h = true) /\ calcDerivedValues w' = w'.
Proof.
  intros p w w' E. apply configure_inv in E. destruct E as (a & EA & E). cbv zeta in E. destruct E as (EC & ->). destruct (adjust_keeps p w a EA) as (A1 & A2).
  destruct (derived_keeps a) as (D1 & D2). pose proof (derived_idem a) as DI. apply C59_accepts_iff_fact in EC.
  assert (DF : forall b, calcDerivedValues (finish b (calcDerivedValues a)) = finish b (calcDerivedValues a)) by (intros b; rewrite derived_finish, DI; reflexivity).
  generalize dependent (calcDerivedValues a). intros d EC D1 D2 _ DF. split; [apply acceptable_finish; auto|]. split; [|split; [|split; [|split]]]; auto.
  - apply Forall_forall. intros t HT. unfold finish in HT. wsimpl_in HT. apply in_map_iff in HT. destruct HT as (u & <- & _). reflexivity.
  - unfold finish. wsimpl. rewrite map_length, D2, A2. auto.
  - unfold finish. wsimpl. congruence.
  - unfold finish. wsimpl. rewrite existsb_exists. reflexivity.
Qed.

Definition neverErr {S A} (m : M S A) : Prop := forall s e s', m s <> (Err e, s').
Lemma ne_bind {S A B} (m : M S A) (f : A -> M S B) : neverErr m -> (forall a, neverErr (f a)) -> neverErr (bind m f).
Proof. intros HM HF s e s'. unfold bind. specialize (HM s). destruct (m s) as [[a|e0|e0|] s0]; try discriminate; [apply HF|]. intros _. apply (HM e0 s0). reflexivity. Qed.
Lemma ne_modify {S} (f : S -> S) : neverErr (modify f).
Proof. intros s e s'. discriminate. Qed.
Lemma ne_get {S} : neverErr (@get S).
Proof. intros s e s'. discriminate. Qed.
Lemma ne_getHS i : neverErr (getHS (T:=R) i).
Proof. intros s e s'. unfold getHS. destruct (nth_error (w_hs s) i); discriminate. Qed.
Lemma ne_first f : neverErr (onFirstShutOff (T:=R) f).
Proof.
  unfold onFirstShutOff. apply ne_bind; [apply ne_get|]. intros w. destruct (Z.ltb (w_compIx w) 0); [intros s e s'; discriminate|]. apply ne_bind; [apply ne_getHS|]. intros h. destruct (h_shutOff h); [intros s e s'; discriminate|apply ne_modify].
Qed.
Lemma ne_adjust p : neverErr (adjustModel (T:=R) p).
Proof.
  destruct p; cbn [adjustModel]; auto using ne_first, ne_modify.
  - apply ne_bind; auto using ne_first, ne_modify.
  - assert (NM : forall i f, neverErr (modHS (T:=R) i f)) by (intros; apply ne_modify). do 5 (apply ne_bind; [auto using ne_first, ne_modify, ne_getHS|intros ?]). apply ne_first.
  - intros s e s'. discriminate.
Qed.

Lemma bind_err_inv {S A B} (m : M S A) (f : A -> M S B) s e s' : bind m f s = (Err e, s') ->
  m s = (Err e, s') \/ exists a s1, m s = (Ok a, s1) /\ f a s1 = (Err e, s').
Proof. unfold bind. destruct (m s) as [[a|x|x|] s1]; intros E; try discriminate; [right; exists a, s1; auto|left; injection E as <- <-; reflexivity]. Qed.
Lemma C59_rejected_keeps_fact : forall p (w w' : hpwh R) e, configure p w = (Err e, w') -> t_Ts (w_tank w') = t_Ts (w_tank w) /\ w_setpoint w' = w_setpoint w.
Proof.
  intros p w w' e E. unfold configure in E.
  apply bind_err_inv in E. destruct E as [E|(u & a & EA & E)]; [exfalso; exact (ne_adjust p w e w' E)|]. destruct u.
  destruct (adjust_keeps p w a EA) as (A1 & A2). destruct (derived_keeps a) as (D1 & D2). clear EA.
  apply bind_err_inv in E. destruct E as [E|(u & d & ED & E)]; [discriminate|]. injection ED as _ <-.
  apply bind_err_inv in E. destruct E as [E|(u1 & d & ED & E)]; [discriminate|]. injection ED as <- <-.
  apply bind_err_inv in E. destruct E as [E|(u2 & d & ED & E)].
  - unfold lift in E. injection E as _ E. rewrite <- E. clear E. generalize dependent (calcDerivedValues a). intros d D1 D2. split; congruence.
  - exfalso. revert E. generalize d. clear. intros d E.
    refine (ne_bind resetTankToSetpoint _ _ _ d e w' E); [intros s0 e0 s1; discriminate|intros _; apply ne_modify].
Qed.

Lemma C59_idempotent_fact : forall (w w' : hpwh R), configure POther w = (Ok tt, w') -> configure POther w' = (Ok tt, w').
Proof.
  intros w w' E. destruct (C59_configured_fact _ _ _ E) as (AC & TS & _ & _ & _ & DI). apply configure_inv in E. destruct E as (a & _ & E). cbv zeta in E. destruct E as (_ & EW).
  assert (EH : w_heating w' = existsb (fun h => h_on h) (w_hs w')) by (rewrite EW; reflexivity). clear EW a.
  unfold configure. cbn [adjustModel]. unfold bind, ret, modify, get, lift, resetTankToSetpoint. rewrite DI. rewrite (proj2 (C59_accepts_iff_fact w') AC).
  unfold bind, onTank, setNodeT, modify, get. cbn. f_equal. rewrite <- EH. clear AC DI EH.
  assert (EM : map (fun _ => w_setpoint w') (t_Ts (w_tank w')) = t_Ts (w_tank w')). { generalize dependent (t_Ts (w_tank w')). intros Ts TS. induction TS; cbn; congruence. }
  rewrite EM. clear. destruct w' as [h sp sf t]. destruct t. reflexivity.
Qed.

(** what acceptance leaves to the user: with non-negative weights, evaluable logics, links to existing sources and condensers
    that are wrapped or submerged and deliver heat at the given air temperature and the water temperatures [D], an accepted model is ready to run *)
Record leftToUser (have : bool) (sp air : R) (D : R -> Prop) (k : nat) (h : hsrc R) : Prop := {
  lu_weights : Forall (fun p => 0 <= snd p) (h_dist h);
  lu_logics : forall l, In l (h_turnOn h) \/ In l (h_shutOff h) ->
    match l with TempLogic _ d _ _ _ _ _ => Forall (fun p => 0 <= snd p) (d_w d) | SoCLogic _ _ _ _ constMains _ _ _ => have = true \/ constMains = true end;
  lu_stby : forall l, h_standby h = Some l -> logicReady have l;
  lu_links : forall b, h_backup h = Some b \/ h_companion h = Some b \/ h_followed h = Some b -> (b < k)%nat;
  lu_power : h_type h = TResistance -> 0 < h_power h;
  lu_comp : h_type h = TCompressor -> h_config h <> External /\ (h_config h = Wrapped -> h_shrink h <> 0) /\ sp <= h_maxSet h /\ h_mlAir h < air /\
    forall (w : hpwh R) cond, D cond -> exists p, getPerformance w h air cond = Ok p /\ 0 < p_out p
}.
Lemma valid_good (d : wdist R) : validWeights d -> Forall (fun p => 0 <= snd p) d -> goodDist d.
Proof.
  intros [HS HE] HF. constructor; auto.
  - destruct HE; discriminate.
  - clear HE HF. revert HS. generalize 0. induction d as [|[h x] d IH]; intros pr HS; cbn; auto. cbn in HS. inversion HS; subst. split; [inversion H2; auto|]. apply IH; auto.
Qed.
Lemma C59_ready_fact : forall (w : hpwh R) air D, let d := calcDerivedValues w in acceptable d ->
  Forall (leftToUser (w_haveInletT d) (w_setpoint d) air D (length (w_hs d))) (w_hs d) -> (w_usesSoC d = true -> (0 <= w_compIx d)%Z) -> unitReady air D d.
Proof.
  intros w air Dw. cbv zeta. intros AC HF HU. pose proof (C56_compressor_index_fact w) as XC. pose proof (C56_lowest_element_fact w) as XL. pose proof (C56_vip_element_fact w) as XV. cbv zeta in XC, XL, XV.
  generalize dependent (calcDerivedValues w). intros d AC HF HU XC XL XV. destruct AC as [A B C D E F].
  assert (LT : forall i h, nth_error (w_hs d) i = Some h -> (i < length (w_hs d))%nat) by (intros i h HI; apply nth_error_Some; congruence).
  constructor.
  - rewrite Forall_forall in *. intros h HI. pose proof (HF h HI) as [L1 L2 L3 L4 L5 L6]. apply In_nth_error in HI. destruct HI as (i & HI). pose proof (B i h HI) as [S1 S2 S3 S4 S5 S6].
    assert (LR : forall ls, Forall validLogic ls -> (forall l, In l ls -> In l (h_turnOn h) \/ In l (h_shutOff h)) -> Forall (logicReady (w_haveInletT d)) ls).
    { intros ls HV HI'. rewrite Forall_forall in *. intros l HL. specialize (HV l HL). specialize (L2 l (HI' l HL)). destruct l; cbn [logicReady validLogic] in *; auto. intros HD. apply valid_good; auto. }
    constructor; auto; try (intros HT; apply L6 in HT; tauto).
    apply valid_good; auto.
  - destruct XC as [[-> _]|(i & -> & (h & HI & _) & _)]; [|apply LT in HI]; lia.
  - destruct XL as [[-> _]|(i & h & -> & (HI & _) & _)]; [|apply LT in HI]; lia.
  - destruct XV as [[-> _]|(i & h & -> & (HI & _) & _)]; [|apply LT in HI]; lia.
  - intros HS. destruct (C (HU HS)) as (a & u & HG & _). unfold getSizingFractions in HG. rewrite HS in HG. destruct (negb (hasCompressor d)); discriminate.
Qed.

(** the check does not look at the volume, at the sign of weights, at element power or at whether state-of-charge logics know
    the mains temperature, so an accepted unit can still fail in its first step: an element with a state-of-charge logic
    and a tank without volume raise an error, and an element without power divides zero
    by zero *)
Definition exSoCElement : hpwh float :=
  set_w_haveInletT false (set_w_hs [exHS TResistance false None exUpper [turnOnSoC (T:=float) (fofZ 1) (fofZ 0) (fofZ 40) false (fofZ 10)] [] 2] (exUnit (map fofZ [20; 20; 20; 20]%Z))).
Definition exNoVolume : hpwh float := let u := exUnit (T:=float) (map fofZ [20; 20; 20; 20]%Z) in set_w_tank (set_t_volume (fofZ 0) (w_tank u)) u.
Definition exNoPower : hpwh float := let u := exUnit (T:=float) (map fofZ [20; 20; 20; 20]%Z) in set_w_hs (map (set_h_power (fofZ 0)) (w_hs u)) u.
Definition isNaN (x : float) : bool := negb (PrimFloat.eqb x x).
Lemma C59_accepted_runs_refuted_fact :
  (exists w' w'' e, configure POther exSoCElement = (Ok tt, w') /\ runOneStep 100 (exIn (fofZ 0) (fofZ 20) 0) w' = (Err e, w'')) /\
  (exists w' w'' e, configure POther exNoVolume = (Ok tt, w') /\ runOneStep 100 (exIn (fofZ 0) (fofZ 20) 0) w' = (Err e, w'')) /\
  (exists w' w'', configure POther exNoPower = (Ok tt, w') /\ runOneStep 200 (exIn (fofZ 150) (fofZ 20) 0) w' = (Ok tt, w'') /\ existsb (fun h => isNaN (h_runtime h)) (w_hs w'') = true).
Proof.
  split; [|split].
  - eexists _, _, _. split; [vm_compute; reflexivity|]. vm_compute. reflexivity.
  - eexists _, _, _. split; [vm_compute; reflexivity|]. vm_compute. reflexivity.
  - eexists _, _. split; [vm_compute; reflexivity|]. split; vm_compute; reflexivity.
Qed.
Lemma exDist_valid : validWeights (exUpper (T:=R)) /\ validWeights (exLower (T:=R)).
Proof.
  assert (HH : StronglySorted Rlt [0; dec 5 10; nofZ 1]) by (unfold dec; num_simpl; repeat (constructor; try lra)).
  split; (split; [exact HH|]); unfold exUpper, exLower, dec; num_simpl.
  - right. left. cbn [snd]. lra.
  - left. cbn [snd]. lra.
Qed.
Lemma exUnit_sizing Ts : length Ts = 4%nat -> exists aqua use, getSizingFractions (exUnit (T:=R) Ts) = Ok (aqua, use) /\ 1 - use <= aqua.
Proof.
  intros HL. unfold getSizingFractions, hasCompressor, exUnit. wsimpl. cbn [Z.leb Z.compare negb]. unfold compressor. wsimpl. change (Z.to_nat 2) with 2%nat. cbn [Z.ltb Z.compare nth_error exSources obind].
  unfold exSources. cbn [nth_error obind]. unfold aquaFract, useFract, exHS. wsimpl. cbn [fold_left l_nodeWeightAvgFract exOn exOff d_type d_w l_desc exLower String.eqb Ascii.eqb Bool.eqb orb].
  unfold numNodes, LOGIC_SIZE. wsimpl. unfold exTankG. wsimpl. rewrite HL. unfold exLower. cbn [fold_left]. unfold dec. num_simpl. unfold nofN. num_simpl. change (Z.of_nat 4) with 4%Z. change (Z.of_nat 12) with 12%Z.
  assert (HA : (0 + 1 * (5 / 10 - 0) * (5 / 10 * (5 / 10 + 0)) + 0 * (1 - 5 / 10) * (5 / 10 * (1 + 5 / 10))) / (0 + 1 * (5 / 10 - 0) + 0 * (1 - 5 / 10)) / 1 + 5 / 10 / 12 = 7 / 24) by field.
  rewrite HA. rewrite (proj2 (Rltb_true (7 / 24) 1)) by lra. rewrite (proj2 (Rltb_true (1 - 1 / 4) 1)) by lra. rewrite nabs_R.
  eexists _, _. split; [reflexivity|]. rewrite (proj2 (Rltb_false _ _)); [lra|]. rewrite tol_val || unfold TOL_MINVALUE, dec; num_simpl. rewrite Rabs_right; lra.
Qed.
Lemma C59_example_fact : forall Ts, length Ts = 4%nat -> acceptable (exUnit (T:=R) Ts) /\
  ~ acceptable (set_w_hs (map (set_h_airflow 0) (w_hs (exUnit (T:=R) Ts))) (exUnit (T:=R) Ts)).
Proof.
  intros Ts HL. split.
  - destruct exDist_valid as (VU & VL). constructor.
    + left. discriminate.
    + intros i h HI. unfold exUnit in *. wsimpl. wsimpl_in HI. unfold exTankG. wsimpl. rewrite HL.
      assert (VOU : forall t, validLogic (exOn (T:=R) exUpper t)) by (intros t _; exact VU). assert (VOL : forall t, validLogic (exOn (T:=R) exLower t)) by (intros t _; exact VL).
      assert (VOF : forall t, validLogic (exOff (T:=R) t)) by (intros t HD; discriminate HD).
      assert (H3 : forall h0, In h0 (exSources (T:=R)) -> 0 < h_airflow h0 <= 1) by (intros h0 [<-|[<-|[<-|[]]]]; cbn [exHS h_airflow]; num_simpl; lra).
      pose proof (H3 h (nth_error_In _ _ HI)) as HA. destruct i as [|[|[|[|i]]]]; cbn in HI; inversion HI; subst h; clear HI; constructor; auto.
      * left. discriminate.
      * constructor; [apply VOU|constructor].
      * constructor.
      * intros HT. discriminate HT.
      * right. eexists 2%nat, _. split; [reflexivity|]. split; [reflexivity|]. split; [discriminate|]. intros [|[|k]] q HK HQ; [| |lia]; cbn in HQ; inversion HQ; subst; discriminate.
      * constructor.
      * constructor.
      * intros HT. discriminate HT.
      * left. discriminate.
      * constructor; [apply VOL|constructor].
      * constructor; [apply VOF|constructor].
      * intros _. constructor; cbn [exHS h_doDefrost h_config h_shxPump]; [discriminate|discriminate|]. intros _. num_simpl. reflexivity.
    + intros _. apply exUnit_sizing; auto.
    + eexists. unfold isNewSetpointPossible, tempToC. cbn [obind]. unfold setpointPossible, hasCompressor, exUnit. wsimpl. cbn [Z.leb Z.compare]. change (Z.to_nat 2) with 2%nat. cbn [nth_error exSources obind].
      unfold tempFromC. unfold tolT, dec. num_simpl. rewrite (proj2 (Rltb_false _ _)) by lra. reflexivity.
    + unfold exUnit, exTankG. wsimpl. num_simpl. lra.
    + unfold exUnit, exTankG. wsimpl. unfold dec. num_simpl. lra.
  - intros [_ B _ _ _ _]. destruct (B 0%nat _ eq_refl) as [_ _ _ _ HA _]. cbn in HA. lra.
Qed.
