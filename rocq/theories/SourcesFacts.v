(** Proofs of the theorems stated in PropsSources.v: Properties of derived indices, resistance elements, compressor capacity and sizing fractions *)

From Coq Require Import ZArith String List Bool Reals Lra Lia Permutation Floats Sorting.Sorted.
From Verif Require Import Num FNum Base Units Utils Types TankM Logic HeatSrc Step Setters Spec SpecState SpecDist.
From Verif Require Import RList FrameProofs SimFrame MixProofs DistProofs TankFacts ControlProofs EnergyFacts SettersFacts Example.
Import ListNotations.
Local Open Scope R_scope.
(** ** C56 *)
(** height of the lowest heated point of an element, as a fraction of the tank *)
Definition elementHeight (h : hsrc R) : R := wd_lowestNormalizedHeight (h_dist h).
Definition isCompAt (hs : list (hsrc R)) (i : nat) : Prop := exists h, nth_error hs i = Some h /\ h_type h = TCompressor.
Definition isElemAt (hs : list (hsrc R)) (i : nat) (h : hsrc R) : Prop := nth_error hs i = Some h /\ h_type h = TResistance.

Record scanOK (hs : list (hsrc R)) (s : scanIx (T:=R)) : Prop := {
  so_comp : (x_comp s = (-1)%Z /\ forall i, ~ isCompAt hs i) \/
            exists i, x_comp s = Z.of_nat i /\ isCompAt hs i /\ forall j, (i < j)%nat -> ~ isCompAt hs j;
  so_low : (x_low s = (-1)%Z /\ x_lowPos s = 1 /\ forall i h, isElemAt hs i h -> 1 <= elementHeight h) \/
           exists i h, x_low s = Z.of_nat i /\ isElemAt hs i h /\ x_lowPos s = elementHeight h /\ elementHeight h < 1 /\
             forall j h', isElemAt hs j h' -> elementHeight h <= elementHeight h' /\ ((j < i)%nat -> elementHeight h < elementHeight h');
  so_high : (x_high s = (-1)%Z /\ x_highPos s = 0 /\ forall i h, isElemAt hs i h -> elementHeight h < 0) \/
           exists i h, x_high s = Z.of_nat i /\ isElemAt hs i h /\ x_highPos s = elementHeight h /\ 0 <= elementHeight h /\
             forall j h', isElemAt hs j h' -> elementHeight h' <= elementHeight h /\ ((i < j)%nat -> elementHeight h' < elementHeight h);
  so_vip : (x_vip s = (-1)%Z /\ forall i h, isElemAt hs i h -> h_vip h = false) \/
           exists i h, x_vip s = Z.of_nat i /\ isElemAt hs i h /\ h_vip h = true /\
             forall j h', (j < i)%nat -> isElemAt hs j h' -> h_vip h' = false
}.
Lemma nth_snoc {A} (l : list A) x i y : nth_error (l ++ [x]) i = Some y <-> (nth_error l i = Some y \/ (i = length l /\ y = x)).
Proof.
  destruct (Nat.lt_ge_cases i (length l)) as [HL|HL].
  - rewrite nth_error_app1 by auto. split; [auto|]. intros [E|(E & _)]; auto; lia.
  - rewrite nth_error_app2 by auto. assert (N : nth_error l i = None) by (apply nth_error_None; auto). rewrite N.
    destruct (i - length l)%nat as [|k] eqn:EK; cbn.
    + split; [intros E; inversion E; right; split; [lia|auto]|intros [E|(_ & ->)]; [discriminate|auto]].
    + split; [destruct k; discriminate|]. intros [E|(E & _)]; [discriminate|lia].
Qed.
Lemma isElem_snoc hs x i h : isElemAt (hs ++ [x]) i h <-> isElemAt hs i h \/ (i = length hs /\ h = x /\ h_type x = TResistance).
Proof. unfold isElemAt. rewrite nth_snoc. split; [intros ([E|(-> & ->)] & T0); auto|intros [(E & T0)|(-> & -> & T0)]; auto]. Qed.
Lemma isComp_snoc hs x i : isCompAt (hs ++ [x]) i <-> isCompAt hs i \/ (i = length hs /\ h_type x = TCompressor).
Proof.
  unfold isCompAt. split.
  - intros (h & E & T0). apply nth_snoc in E. destruct E as [E|(-> & ->)]; [left; eauto|auto].
  - intros [(h & E & T0)|(-> & T0)]; [exists h|exists x]; rewrite nth_snoc; auto.
Qed.
Lemma isElem_lt hs i h : isElemAt hs i h -> (i < length hs)%nat.
Proof. intros (E & _). apply nth_error_Some. congruence. Qed.
Lemma isComp_lt hs i : isCompAt hs i -> (i < length hs)%nat.
Proof. intros (h & E & _). apply nth_error_Some. congruence. Qed.
Lemma scanOne_ok hs s x : scanOK hs s -> scanOK (hs ++ [x]) (scanOne s (length hs) x).
Proof.
  intros [C L Hi V]. unfold scanOne. destruct (h_type x) eqn:TX.
  - split; cbn [x_comp x_low x_high x_vip x_lowPos x_highPos].
    + right. exists (length hs). split; [auto|]. split; [apply isComp_snoc; auto|]. intros j Hj HC. apply isComp_lt in HC. rewrite app_length in HC. cbn in HC. lia.
    + destruct L as [(A & B & D)|(i & h & A & B & D & E & F)]; [left|right; exists i, h].
      * split; [auto|]. split; [auto|]. intros i h HE. apply isElem_snoc in HE. destruct HE as [HE|(_ & _ & HE)]; [eauto|congruence].
      * split; [auto|]. split; [apply isElem_snoc; auto|]. split; [auto|]. split; [auto|].
        intros j h' HE. apply isElem_snoc in HE. destruct HE as [HE|(_ & _ & HE)]; [auto|congruence].
    + destruct Hi as [(A & B & D)|(i & h & A & B & D & E & F)]; [left|right; exists i, h].
      * split; [auto|]. split; [auto|]. intros i h HE. apply isElem_snoc in HE. destruct HE as [HE|(_ & _ & HE)]; [eauto|congruence].
      * split; [auto|]. split; [apply isElem_snoc; auto|]. split; [auto|]. split; [auto|].
        intros j h' HE. apply isElem_snoc in HE. destruct HE as [HE|(_ & _ & HE)]; [auto|congruence].
    + destruct V as [(A & B)|(i & h & A & B & D & E)]; [left|right; exists i, h].
      * split; auto. intros i h HE. apply isElem_snoc in HE. destruct HE as [HE|(_ & _ & HE)]; [eauto|congruence].
      * split; [auto|]. split; [apply isElem_snoc; auto|]. split; [auto|]. intros j h' Hj HE. apply isElem_snoc in HE. destruct HE as [HE|(_ & _ & HE)]; [eauto|congruence].
  - cbv zeta. fold (elementHeight x). num_simpl.
    assert (HN : isElemAt (hs ++ [x]) (length hs) x) by (apply isElem_snoc; auto).
    assert (HO : forall i h, isElemAt hs i h -> isElemAt (hs ++ [x]) i h) by (intros; apply isElem_snoc; auto).
    assert (HI : forall i h, isElemAt (hs ++ [x]) i h -> isElemAt hs i h \/ (i = length hs /\ h = x)) by (intros i h HH; apply isElem_snoc in HH; tauto).
    assert (QC : forall i, isCompAt (hs ++ [x]) i -> isCompAt hs i) by (intros i HH; apply isComp_snoc in HH; destruct HH as [HH|(_ & HH)]; [auto|congruence]).
    assert (XC : (x_comp s = (-1)%Z /\ forall i, ~ isCompAt (hs ++ [x]) i) \/
            exists i, x_comp s = Z.of_nat i /\ isCompAt (hs ++ [x]) i /\ forall j, (i < j)%nat -> ~ isCompAt (hs ++ [x]) j).
    { destruct C as [(A & B)|(i & A & B & D)]; [left; split; auto; intros i HC; apply (B i); auto|].
      right. exists i. split; [auto|]. split; [apply isComp_snoc; auto|]. intros j Hj HC. apply (D j); auto. }
    assert (XV : (let vip := if (h_vip x && Z.eqb (x_vip s) (-1))%bool then Z.of_nat (length hs) else x_vip s in
        (vip = (-1)%Z /\ forall i h, isElemAt (hs ++ [x]) i h -> h_vip h = false) \/
           exists i h, vip = Z.of_nat i /\ isElemAt (hs ++ [x]) i h /\ h_vip h = true /\
             forall j h', (j < i)%nat -> isElemAt (hs ++ [x]) j h' -> h_vip h' = false)).
    { cbv zeta. destruct V as [(A & B)|(i & h & A & B & D & E)].
      - rewrite A. destruct (h_vip x) eqn:EV; cbn [andb].
        + rewrite Z.eqb_refl. right. exists (length hs), x. split; [auto|]. split; [auto|]. split; [auto|]. intros j h' Hj HE. apply HI in HE. destruct HE as [HE|(HE & _)]; [eauto|lia].
        + left. split; auto. intros i h HE. apply HI in HE. destruct HE as [HE|(_ & ->)]; eauto.
      - replace (Z.eqb (x_vip s) (-1)) with false by (symmetry; apply Z.eqb_neq; lia). rewrite Bool.andb_false_r. right. exists i, h. split; [auto|]. split; [auto|]. split; [auto|].
        intros j h' Hj HE. pose proof (isElem_lt _ _ _ B). apply HI in HE. destruct HE as [HE|(HE & _)]; [eauto|lia]. }
    assert (XL : let r := if Rltb (elementHeight x) (x_lowPos s) then (Z.of_nat (length hs), elementHeight x) else (x_low s, x_lowPos s) in
        (fst r = (-1)%Z /\ snd r = 1 /\ forall i h, isElemAt (hs ++ [x]) i h -> 1 <= elementHeight h) \/
           exists i h, fst r = Z.of_nat i /\ isElemAt (hs ++ [x]) i h /\ snd r = elementHeight h /\ elementHeight h < 1 /\
             forall j h', isElemAt (hs ++ [x]) j h' -> elementHeight h <= elementHeight h' /\ ((j < i)%nat -> elementHeight h < elementHeight h')).
    { cbv zeta. destruct L as [(A & B & D)|(i & h & A & B & D & E & F)].
      - rewrite B. destruct (Rltb (elementHeight x) 1) eqn:EL; [apply Rltb_true in EL|apply Rltb_false in EL]; cbn [fst snd].
        + right. exists (length hs), x. split; [auto|]. split; [auto|]. split; [auto|]. split; [auto|]. intros j h' HE. apply HI in HE.
          destruct HE as [HE|(HE & ->)]; [apply D in HE; split; [lra|intros; lra]|split; [lra|lia]].
        + left. split; [auto|]. split; [auto|]. intros i h HE. apply HI in HE. destruct HE as [HE|(_ & ->)]; eauto.
      - rewrite D. destruct (Rltb (elementHeight x) (elementHeight h)) eqn:EL; [apply Rltb_true in EL|apply Rltb_false in EL]; cbn [fst snd]; right.
        + exists (length hs), x. split; [auto|]. split; [auto|]. split; [auto|]. split; [lra|]. intros j h' HE. apply HI in HE.
          destruct HE as [HE|(HE & ->)]; [apply F in HE; split; [lra|intros; lra]|split; [lra|lia]].
        + exists i, h. split; [auto|]. split; [auto|]. split; [auto|]. split; [auto|]. intros j h' HE. pose proof (isElem_lt _ _ _ B). apply HI in HE.
          destruct HE as [HE|(HE & ->)]; [auto|split; [lra|lia]]. }
    assert (XH : let r := if Rleb (x_highPos s) (elementHeight x) then (Z.of_nat (length hs), elementHeight x) else (x_high s, x_highPos s) in
        (fst r = (-1)%Z /\ snd r = 0 /\ forall i h, isElemAt (hs ++ [x]) i h -> elementHeight h < 0) \/
           exists i h, fst r = Z.of_nat i /\ isElemAt (hs ++ [x]) i h /\ snd r = elementHeight h /\ 0 <= elementHeight h /\
             forall j h', isElemAt (hs ++ [x]) j h' -> elementHeight h' <= elementHeight h /\ ((i < j)%nat -> elementHeight h' < elementHeight h)).
    { cbv zeta. destruct Hi as [(A & B & D)|(i & h & A & B & D & E & F)].
      - rewrite B. destruct (Rleb 0 (elementHeight x)) eqn:EL; [apply Rleb_true in EL|apply Rleb_false in EL]; cbn [fst snd].
        + right. exists (length hs), x. split; [auto|]. split; [auto|]. split; [auto|]. split; [auto|]. intros j h' HE. pose proof (isElem_lt _ _ _ HE) as HJ. rewrite app_length in HJ; cbn in HJ.
          apply HI in HE. destruct HE as [HE|(HE & ->)]; [apply D in HE; split; [lra|intros; lra]|split; [lra|lia]].
        + left. split; [auto|]. split; [auto|]. intros i h HE. apply HI in HE. destruct HE as [HE|(_ & ->)]; eauto.
      - rewrite D. destruct (Rleb (elementHeight h) (elementHeight x)) eqn:EL; [apply Rleb_true in EL|apply Rleb_false in EL]; cbn [fst snd]; right.
        + exists (length hs), x. split; [auto|]. split; [auto|]. split; [auto|]. split; [lra|]. intros j h' HE. pose proof (isElem_lt _ _ _ HE) as HJ. rewrite app_length in HJ; cbn in HJ.
          apply HI in HE. destruct HE as [HE|(HE & ->)]; [apply F in HE; split; [lra|lia]|split; [lra|lia]].
        + exists i, h. split; [auto|]. split; [auto|]. split; [auto|]. split; [auto|]. intros j h' HE. apply HI in HE.
          destruct HE as [HE|(HE & ->)]; [auto|split; [lra|intros; lra]]. }
    cbv zeta in XV, XL, XH. destruct (if Rltb (elementHeight x) (x_lowPos s) then _ else _) as [lo lp]. destruct (if Rleb (x_highPos s) (elementHeight x) then _ else _) as [hi hp].
    cbn [fst snd] in XL, XH. split; cbn [x_comp x_low x_high x_vip x_lowPos x_highPos]; auto.
Qed.
Lemma scanHS_ok : forall suf hs s, scanOK hs s -> scanOK (hs ++ suf) (scanHS s (length hs) suf).
Proof.
  induction suf as [|x suf IH]; intros hs s HS; cbn [scanHS]; [rewrite app_nil_r; auto|].
  replace (hs ++ x :: suf) with ((hs ++ [x]) ++ suf) by (rewrite <- app_assoc; auto).
  replace (S (length hs)) with (length (hs ++ [x])) by (rewrite app_length; cbn; lia). apply IH, scanOne_ok, HS.
Qed.
Lemma scan_init : scanOK [] (mkscan (-1) (-1) (-1) (-1) (nofZ 1) (nofZ 0)).
Proof.
  split; left; cbn; splits; auto; try (intros i (h & E & _); destruct i; discriminate E); intros i h (E & _); destruct i; discriminate E.
Qed.
Lemma derived_scan (w : hpwh R) : let w' := calcDerivedValues w in
  exists s, scanOK (w_hs w') s /\ w_compIx w' = x_comp s /\ w_lowIx w' = x_low s /\ w_highIx w' = x_high s /\ w_vipIx w' = x_vip s.
Proof.
  cbv zeta. eexists. split; [|split; [reflexivity|split; [reflexivity|split; reflexivity]]].
  exact (scanHS_ok _ [] _ scan_init).
Qed.
Lemma C56_compressor_index_fact : forall w : hpwh R, let w' := calcDerivedValues w in
  (w_compIx w' = (-1)%Z /\ forall i, ~ isCompAt (w_hs w') i) \/
  exists i, w_compIx w' = Z.of_nat i /\ isCompAt (w_hs w') i /\ forall j, (i < j)%nat -> ~ isCompAt (w_hs w') j.
Proof. intros w. cbv zeta. destruct (derived_scan w) as (s & [C _ _ _] & E & _). rewrite E. exact C. Qed.
Lemma C56_lowest_element_fact : forall w : hpwh R, let w' := calcDerivedValues w in
  (w_lowIx w' = (-1)%Z /\ forall i h, isElemAt (w_hs w') i h -> 1 <= elementHeight h) \/
  exists i h, w_lowIx w' = Z.of_nat i /\ isElemAt (w_hs w') i h /\
    forall j h', isElemAt (w_hs w') j h' -> elementHeight h <= elementHeight h' /\ ((j < i)%nat -> elementHeight h < elementHeight h').
Proof.
  intros w. cbv zeta. destruct (derived_scan w) as (s & [_ L _ _] & _ & E & _). rewrite E.
  destruct L as [(A & _ & B)|(i & h & A & B & _ & _ & D)]; [left; auto|right; exists i, h; auto].
Qed.
Lemma C56_highest_element_fact : forall w : hpwh R, let w' := calcDerivedValues w in
  (w_highIx w' = (-1)%Z /\ forall i h, isElemAt (w_hs w') i h -> elementHeight h < 0) \/
  exists i h, w_highIx w' = Z.of_nat i /\ isElemAt (w_hs w') i h /\
    forall j h', isElemAt (w_hs w') j h' -> elementHeight h' <= elementHeight h /\ ((i < j)%nat -> elementHeight h' < elementHeight h).
Proof.
  intros w. cbv zeta. destruct (derived_scan w) as (s & [_ _ L _] & _ & _ & E & _). rewrite E.
  destruct L as [(A & _ & B)|(i & h & A & B & _ & _ & D)]; [left; auto|right; exists i, h; auto].
Qed.
Lemma C56_vip_element_fact : forall w : hpwh R, let w' := calcDerivedValues w in
  (w_vipIx w' = (-1)%Z /\ forall i h, isElemAt (w_hs w') i h -> h_vip h = false) \/
  exists i h, w_vipIx w' = Z.of_nat i /\ isElemAt (w_hs w') i h /\ h_vip h = true /\ forall j h', (j < i)%nat -> isElemAt (w_hs w') j h' -> h_vip h' = false.
Proof. intros w. cbv zeta. destruct (derived_scan w) as (s & [_ _ _ V] & _ & _ & _ & E). rewrite E. exact V. Qed.
Lemma lowest_loop_bounds H w : 0 < H -> forall prev, 0 <= prev < H -> ascending prev w -> (forall p, In p w -> fst p <= H) ->
  0 <= wd_lowest_loop H prev w < 1.
Proof.
  intros HH. induction w as [|[h wt] r IH]; intros prev Hp HA HB; cbn [wd_lowest_loop]; num_simpl; [lra|].
  destruct HA as (A1 & A2). destruct (Rltb 0 wt).
  - split; [apply Rmult_le_pos; [lra|left; apply Rinv_0_lt_compat; lra]|]. apply (Rmult_lt_reg_r H); [lra|]. unfold Rdiv. rewrite Rmult_assoc, Rinv_l by lra. lra.
  - specialize (HB (h, wt) (or_introl eq_refl)) as Hh. cbn in Hh. destruct (Rle_lt_or_eq_dec h H Hh) as [HL|HL].
    + apply IH; auto; try lra. intros p HP. apply HB. right. auto.
    + destruct r as [|[h2 w2] r]; cbn [wd_lowest_loop]; num_simpl; [lra|]. exfalso. destruct A2 as (A2 & _). specialize (HB (h2, w2) (or_intror (or_introl eq_refl))). cbn in HB. lra.
Qed.
Lemma C56_found_if_present_fact : forall w : hpwh R, let w' := calcDerivedValues w in
  (forall i h, isElemAt (w_hs w') i h -> goodDist (h_dist h)) -> (exists i h, isElemAt (w_hs w') i h) -> (0 <= w_lowIx w')%Z /\ (0 <= w_highIx w')%Z.
Proof.
  intros w. cbv zeta. intros HG (i0 & h0 & HE).
  assert (HB : 0 <= elementHeight h0 < 1).
  { destruct (HG _ _ HE) as [N A _ _]. unfold elementHeight, wd_lowestNormalizedHeight. pose proof (topHeight_pos _ A N) as HT.
    change (0 <= wd_lowest_loop (topHeight (h_dist h0)) 0 (h_dist h0) < 1). apply lowest_loop_bounds; auto; [lra|].
    intros p HP. eapply ascending_le_top; eauto. }
  split.
  - destruct (C56_lowest_element_fact w) as [(_ & A)|(i & h & A & _)]; [apply A in HE; lra|lia].
  - destruct (C56_highest_element_fact w) as [(_ & A)|(i & h & A & _)]; [apply A in HE; lra|lia].
Qed.
Definition putDerived (r : list (Z * Z)) (t : tank R) (c l hi v : Z) (hs : list (hsrc R)) (w : hpwh R) : hpwh R :=
  set_w_resMap r (set_w_tank t (set_w_compIx c (set_w_lowIx l (set_w_highIx hi (set_w_vipIx v (set_w_hs hs w)))))).
Definition derivedOf (hs' : list (hsrc R)) (t : tank R) (w : hpwh R) : hpwh R :=
  let s := scanHS (mkscan (-1) (-1) (-1) (-1) (nofZ 1) (nofZ 0)) 0 hs' in
  putDerived (sortPos (resPoints hs' 0)) t (x_comp s) (x_low s) (x_high s) (x_vip s) hs' w.
Lemma derived_form w : calcDerivedValues w = derivedOf (map (deriveHS (numNodes (w_tank w))) (w_hs w)) (calcSizeConstants (w_tank w)) w.
Proof.
  unfold calcDerivedValues, mapRes. 
  assert (HT : w_tank (calcDerivedHeating w) = w_tank w).
  { unfold calcDerivedHeating. cbv zeta. generalize (scanHS (T:=R)). intros f. generalize (map (deriveHS (numNodes (w_tank w))) (w_hs w)). intros hs. destruct w. reflexivity. }
  assert (HH : w_hs (calcDerivedHeating w) = map (deriveHS (numNodes (w_tank w))) (w_hs w)).
  { unfold calcDerivedHeating. cbv zeta. generalize (scanHS (T:=R)). intros f. generalize (map (deriveHS (numNodes (w_tank w))) (w_hs w)). intros hs. destruct w. reflexivity. }
  assert (H3 : forall t v, w_hs (set_w_tank t v) = w_hs (T:=R) v) by reflexivity.
  cbv zeta. rewrite H3, HH, HT. unfold derivedOf, putDerived, calcDerivedHeating. cbv zeta.
  assert (H4 : forall hs v, w_hs (set_w_hs (T:=R) hs v) = hs) by reflexivity. rewrite H4. reflexivity.
Qed.
Lemma putDerived_twice r t c l hi v hs w : putDerived r t c l hi v hs (putDerived r t c l hi v hs w) = putDerived r t c l hi v hs w.
Proof. destruct w. cbv. reflexivity. Qed.
Definition putSize (a b c d e f : R) (t : tank R) : tank R :=
  set_t_nodeHxEff f (set_t_fracSide e (set_t_fracTop d (set_t_nodeHeight c (set_t_nodeCp b (set_t_nodeVol a t))))).
Lemma putSize_twice a b c d e f t : putSize a b c d e f (putSize a b c d e f t) = putSize a b c d e f t.
Proof. destruct t. cbv. reflexivity. Qed.
Lemma putSize_keeps a b c d e f t : t_volume (putSize a b c d e f t) = t_volume t /\ t_hxEff (putSize a b c d e f t) = t_hxEff t /\ numNodes (putSize a b c d e f t) = numNodes t.
Proof. destruct t. cbv. auto. Qed.
Definition sized (vol hx : R) (m : nat) (t : tank R) : tank R :=
  let rad := tankRadius_m vol in let hgt := ASPECTRATIO * rad in let n := nofN m in let nv := vol / n in
  putSize nv (CPWATER * DENSITYWATER * nv) (hgt / n) (rad / (nofZ 2 * (hgt + rad))) (hgt / (hgt + rad)) (nofZ 1 - npow (nofZ 1 - hx) (nofZ 1 / n)) t.
Lemma size_form (t : tank R) : calcSizeConstants t = sized (t_volume t) (t_hxEff t) (numNodes t) t.
Proof.
  unfold calcSizeConstants, sized, putSize. cbv zeta.
  assert (A1 : forall v t, t_hxEff (set_t_fracSide (T:=R) v t) = t_hxEff t) by reflexivity.
  assert (A2 : forall v t, t_hxEff (set_t_fracTop (T:=R) v t) = t_hxEff t) by reflexivity.
  assert (A3 : forall v t, t_hxEff (set_t_nodeHeight (T:=R) v t) = t_hxEff t) by reflexivity.
  assert (A4 : forall v t, t_hxEff (set_t_nodeCp (T:=R) v t) = t_hxEff t) by reflexivity.
  assert (A5 : forall v t, t_hxEff (set_t_nodeVol (T:=R) v t) = t_hxEff t) by reflexivity.
  rewrite A1, A2, A3, A4, A5. reflexivity.
Qed.
Lemma sized_twice v h n t : sized v h n (sized v h n t) = sized v h n t.
Proof. unfold sized. cbv zeta. apply putSize_twice. Qed.
Lemma sized_keeps v h n t : t_volume (sized v h n t) = t_volume t /\ t_hxEff (sized v h n t) = t_hxEff t /\ numNodes (sized v h n t) = numNodes t.
Proof. unfold sized. cbv zeta. apply putSize_keeps. Qed.
Lemma size_idem (t : tank R) : calcSizeConstants (calcSizeConstants t) = calcSizeConstants t.
Proof.
  rewrite (size_form (calcSizeConstants t)), (size_form t). destruct (sized_keeps (t_volume t) (t_hxEff t) (numNodes t) t) as (E1 & E2 & E3).
  rewrite E1, E2, E3. apply sized_twice.
Qed.
Lemma derivedOf_keeps hs t w : w_tank (derivedOf hs t w) = t /\ w_hs (derivedOf hs t w) = hs.
Proof.
  unfold derivedOf. cbv zeta. generalize (scanHS (mkscan (-1) (-1) (-1) (-1) (nofZ 1) (nofZ 0)) 0 hs). intros s. generalize (sortPos (resPoints hs 0)). intros r. destruct w. split; reflexivity.
Qed.
Lemma derivedOf_ix hs t w : let s := scanHS (mkscan (-1) (-1) (-1) (-1) (nofZ 1) (nofZ 0)) 0 hs in w_compIx (derivedOf hs t w) = x_comp s /\ w_lowIx (derivedOf hs t w) = x_low s /\
  w_highIx (derivedOf hs t w) = x_high s /\ w_vipIx (derivedOf hs t w) = x_vip s.
Proof.
  unfold derivedOf. cbv zeta. generalize (scanHS (mkscan (-1) (-1) (-1) (-1) (nofZ 1) (nofZ 0)) 0 hs). intros s. generalize (sortPos (resPoints hs 0)). intros r. destruct w. repeat split; reflexivity.
Qed.
Lemma derivedOf_twice hs t w : derivedOf hs t (derivedOf hs t w) = derivedOf hs t w.
Proof. unfold derivedOf. cbv zeta. apply putDerived_twice. Qed.
Lemma derived_idem (w : hpwh R) : calcDerivedValues (calcDerivedValues w) = calcDerivedValues w.
Proof.
  rewrite (derived_form (calcDerivedValues w)), (derived_form w). destruct (derivedOf_keeps (map (deriveHS (numNodes (w_tank w))) (w_hs w)) (calcSizeConstants (w_tank w)) w) as (HT & HH).
  rewrite HT, HH, size_idem.
  assert (HN : numNodes (calcSizeConstants (w_tank w)) = numNodes (w_tank w)) by (rewrite size_form; apply sized_keeps). rewrite HN.
  rewrite map_map. assert (HM : map (fun x => deriveHS (numNodes (w_tank w)) (deriveHS (numNodes (w_tank w)) x)) (w_hs w) = map (deriveHS (numNodes (w_tank w))) (w_hs w)).
  { apply map_ext. intros h. generalize (numNodes (w_tank w)). intros n. unfold deriveHS. destruct h. reflexivity. }
  rewrite HM. apply derivedOf_twice.
Qed.
Lemma C56_derived_only_fact : forall w : hpwh R, let w' := calcDerivedValues w in
  map h_type (w_hs w') = map h_type (w_hs w) /\ map h_dist (w_hs w') = map h_dist (w_hs w) /\ map h_turnOn (w_hs w') = map h_turnOn (w_hs w) /\
  map h_power (w_hs w') = map h_power (w_hs w) /\ t_Ts (w_tank w') = t_Ts (w_tank w) /\ t_volume (w_tank w') = t_volume (w_tank w) /\
  w_setpoint w' = w_setpoint w /\ Forall (fun h => h_depresses h = match h_type h with TCompressor => true | TResistance => false end) (w_hs w') /\
  calcDerivedValues w' = w'.
Proof.
  intros w. cbv zeta. assert (HI : calcDerivedValues (calcDerivedValues w) = calcDerivedValues w) by apply derived_idem.
  assert (Ehs : w_hs (calcDerivedValues w) = map (deriveHS (numNodes (w_tank w))) (w_hs w)) by (rewrite derived_form; apply derivedOf_keeps).
  assert (ET : w_tank (calcDerivedValues w) = calcSizeConstants (w_tank w)) by (rewrite derived_form; apply derivedOf_keeps).
  assert (ES : w_setpoint (calcDerivedValues w) = w_setpoint w).
  { rewrite derived_form. unfold derivedOf. cbv zeta. generalize (scanHS (mkscan (-1) (-1) (-1) (-1) (nofZ 1) (nofZ 0)) 0 (map (deriveHS (numNodes (w_tank w))) (w_hs w))). intros s. generalize (map (deriveHS (numNodes (w_tank w))) (w_hs w)). intros hs. generalize (calcSizeConstants (w_tank w)). intros t. destruct w. reflexivity. }
  assert (EV : t_Ts (calcSizeConstants (w_tank w)) = t_Ts (w_tank w) /\ t_volume (calcSizeConstants (w_tank w)) = t_volume (w_tank w)).
  { generalize (w_tank w). intros t. rewrite size_form. split; [|apply sized_keeps]. unfold sized, putSize. cbv zeta. destruct t. reflexivity. }
  generalize dependent (calcDerivedValues w). intros w' HI Ehs ET ES. destruct EV as (EV1 & EV2).
  rewrite Ehs, ET, !map_map. split; [|split; [|split; [|split; [|split; [|split; [|split; [|split]]]]]]]; auto.
  all: try solve [apply map_ext; intros h; unfold deriveHS; destruct h; reflexivity].
  apply Forall_forall. intros h HX. apply in_map_iff in HX. destruct HX as (g & <- & _). unfold deriveHS; destruct g; reflexivity.
Qed.
Lemma C56_example_fact : let w' := calcDerivedValues (set_w_compIx 0 (set_w_lowIx 0 (exUnit (T:=R) [20; 20; 20; 20]))) in
  w_compIx w' = 2%Z /\ w_lowIx w' = 1%Z /\ w_highIx w' = 0%Z /\ w_vipIx w' = 0%Z /\ isElemAt (w_hs w') 1 (deriveHS 4 (exHS TResistance false None exLower [] [] 0)).
Proof.
  cbv zeta. set (w := set_w_compIx _ _). assert (H0 : (w_hs (calcDerivedValues w)) = map (deriveHS 4) exSources) by reflexivity.
  assert (P0 : wd_lowestNormalizedHeight (exUpper (T:=R)) = 1 / 2).
  { unfold wd_lowestNormalizedHeight, wd_maxHeight, exUpper. cbn [wd_lowest_loop last fst]. unfold dec. num_simpl.
    replace (Rltb 0 0) with false by (symmetry; apply Rltb_false; lra). replace (Rltb 0 1) with true by (symmetry; apply Rltb_true; lra). lra. }
  assert (P1 : wd_lowestNormalizedHeight (exLower (T:=R)) = 0).
  { unfold wd_lowestNormalizedHeight, wd_maxHeight, exLower. cbn [wd_lowest_loop last fst]. unfold dec. num_simpl.
    replace (Rltb 0 1) with true by (symmetry; apply Rltb_true; lra). lra. }
  assert (D1 : forall n ty v b d on off lo, h_type (deriveHS n (exHS (T:=R) ty v b d on off lo)) = ty) by reflexivity.
  assert (D2 : forall n ty v b d on off lo, h_dist (deriveHS n (exHS (T:=R) ty v b d on off lo)) = d) by reflexivity.
  assert (D3 : forall n ty v b d on off lo, h_vip (deriveHS n (exHS (T:=R) ty v b d on off lo)) = v) by reflexivity.
  assert (S0 : scanHS (mkscan (-1) (-1) (-1) (-1) (nofZ 1) (nofZ 0)) 0 (map (deriveHS 4) (exSources (T:=R))) = mkscan 2 1 0 0 0 (1 / 2)).
  { cbn [map exSources scanHS]. unfold scanOne at 3. rewrite D1, D2, D3, P0. num_simpl. cbn [andb Z.eqb x_comp x_low x_high x_vip x_lowPos x_highPos].
    replace (Rltb (1 / 2) 1) with true by (symmetry; apply Rltb_true; lra). replace (Rleb 0 (1 / 2)) with true by (symmetry; apply Rleb_true; lra).
    unfold scanOne at 2. rewrite D1, D2, D3, P1. num_simpl. cbn [andb Z.eqb x_comp x_low x_high x_vip x_lowPos x_highPos].
    replace (Rltb 0 (1 / 2)) with true by (symmetry; apply Rltb_true; lra). replace (Rleb (1 / 2) 0) with false by (symmetry; apply Rleb_false; lra).
    unfold scanOne. rewrite D1. reflexivity. }
  rewrite H0. destruct (derivedOf_ix (map (deriveHS 4) exSources) (calcSizeConstants (w_tank w)) w) as (E1 & E2 & E3 & E4).
  rewrite (derived_form w). change (numNodes (w_tank w)) with 4%nat. change (w_hs w) with (exSources (T:=R)). rewrite E1, E2, E3, E4, S0.
  split; [reflexivity|split; [reflexivity|split; [reflexivity|split; [reflexivity|split; reflexivity]]]].
Qed.

(** ** C57 *)
(** the position number of an element: its height in twelfths of the tank, rounded towards zero *)
Definition position (h : hsrc R) : Z := resPos h.
(** a list of (index, position) pairs naming every resistance element exactly once, lowest first *)
Record mapOK (hs : list (hsrc R)) (m : list (Z * Z)) : Prop := {
  mo_once : NoDup (map fst m);
  mo_all : forall i p, In (i, p) m <-> exists k h, i = Z.of_nat k /\ isElemAt hs k h /\ p = position h;
  mo_sorted : StronglySorted (fun a b => (snd a <= snd b)%Z) m
}.
Lemma insertPos_perm p l : Permutation (insertPos p l) (p :: l).
Proof. induction l as [|q l IH]; cbn [insertPos]; auto. destruct (Z.leb _ _); auto. rewrite IH. apply perm_swap. Qed.
Lemma sortPos_perm l : Permutation (sortPos l) l.
Proof. induction l as [|p l IH]; cbn [sortPos fold_right]; auto. fold (sortPos l). rewrite insertPos_perm. auto. Qed.
Lemma insertPos_sorted p l : StronglySorted (fun a b => (snd a <= snd b)%Z) l -> StronglySorted (fun a b => (snd a <= snd b)%Z) (insertPos p l).
Proof.
  induction 1 as [|q l HS IH HF]; cbn [insertPos]; [repeat constructor|]. destruct (Z.leb (snd p) (snd q)) eqn:E.
  - apply Z.leb_le in E. constructor; [constructor; auto|]. constructor; auto. eapply Forall_impl; [|exact HF]. cbn. intros; lia.
  - apply Z.leb_gt in E. constructor; auto. rewrite insertPos_perm. constructor; auto. lia.
Qed.
Lemma sortPos_sorted l : StronglySorted (fun a b => (snd a <= snd b)%Z) (sortPos l).
Proof. induction l as [|p l IH]; cbn [sortPos fold_right]; [constructor|]. fold (sortPos l). apply insertPos_sorted, IH. Qed.
Lemma resPoints_in : forall suf pre i p, In (i, p) (resPoints suf (length pre)) <->
  exists k h, (length pre <= k)%nat /\ i = Z.of_nat k /\ isElemAt (pre ++ suf) k h /\ p = position h.
Proof.
  induction suf as [|x suf IH]; intros pre i p; cbn [resPoints].
  - split; [intros []|]. intros (k & h & HK & _ & HE & _). apply isElem_lt in HE. rewrite app_nil_r in HE. lia.
  - assert (HA : pre ++ x :: suf = (pre ++ [x]) ++ suf) by (rewrite <- app_assoc; auto).
    assert (HL : S (length pre) = length (pre ++ [x])) by (rewrite app_length; cbn; lia).
    assert (HX : nth_error (pre ++ x :: suf) (length pre) = Some x) by (rewrite nth_error_app2, Nat.sub_diag by lia; auto).
    rewrite HL. unfold isRes. destruct (h_type x) eqn:TX.
    + rewrite IH, HA. split; intros (k & h & HK & E1 & E2 & E3); exists k, h; splits; auto; rewrite <- ?HL in *; try lia.
      destruct (Nat.eq_dec k (length pre)) as [->|HN]; [|lia]. destruct E2 as (E2 & E4). rewrite <- HA, HX in E2. inversion E2; subst. congruence.
    + cbn [In]. rewrite IH, HA, <- HL. split.
      * intros [E|(k & h & HK & E1 & E2 & E3)].
        -- inversion E; subst. exists (length pre), x. split; [lia|]. split; [auto|]. split; [|auto]. split; [rewrite <- HA|]; auto.
        -- exists k, h. split; [lia|]. auto.
      * intros (k & h & HK & E1 & E2 & E3). destruct (Nat.eq_dec k (length pre)) as [->|HN].
        -- left. destruct E2 as (E2 & E4). rewrite <- HA, HX in E2. inversion E2; subst. auto.
        -- right. exists k, h. split; [lia|]. auto.
Qed.
Lemma resPoints_nodup : forall suf i, NoDup (map fst (resPoints (T:=R) suf i)) /\ forall z, In z (map fst (resPoints suf i)) -> (Z.of_nat i <= z)%Z.
Proof.
  induction suf as [|x suf IH]; intros i; cbn [resPoints map]; [split; [constructor|intros z []]|].
  destruct (IH (S i)) as (A & B). destruct (isRes x); cbn [map fst].
  - split; [constructor; auto; intros HI; apply B in HI; lia|]. intros z [<-|HI]; [lia|apply B in HI; lia].
  - split; auto. intros z HI. apply B in HI. lia.
Qed.
Lemma resPoints_mapOK_perm hs m : mapOK hs m -> Permutation m (resPoints hs 0).
Proof.
  intros [A B _]. apply NoDup_Permutation.
  - eapply NoDup_map_inv; eauto.
  - eapply NoDup_map_inv. apply resPoints_nodup.
  - intros [i p]. rewrite B, (resPoints_in hs [] i p). cbn [length app]. split; intros (k & h & HH); exists k, h; intuition lia.
Qed.
Lemma sortPos_mapOK hs : mapOK hs (sortPos (resPoints hs 0)).
Proof.
  split; [|intros i p|apply sortPos_sorted].
  - eapply Permutation_NoDup; [apply Permutation_map, Permutation_sym, sortPos_perm|]. apply resPoints_nodup.
  - rewrite (sortPos_perm (resPoints hs 0)), (resPoints_in hs [] i p). cbn [length app]. split; intros (k & h & HH); exists k, h; intuition lia.
Qed.
Lemma C57_map_lists_elements_in_order_fact : forall w : hpwh R, let w' := calcDerivedValues w in
  mapOK (w_hs w') (w_resMap w') /\
  forall m, Permutation m (w_resMap w') -> StronglySorted (fun a b => (snd a <= snd b)%Z) m -> mapOK (w_hs w') m.
Proof.
  intros w. cbv zeta. assert (HH : mapOK (w_hs (calcDerivedValues w)) (w_resMap (calcDerivedValues w))).
  { rewrite derived_form. destruct (derivedOf_keeps (map (deriveHS (numNodes (w_tank w))) (w_hs w)) (calcSizeConstants (w_tank w)) w) as (_ & ->).
    unfold derivedOf. cbv zeta. unfold putDerived. apply sortPos_mapOK. }
  split; auto. destruct HH as [A B _]. intros m HP HS. split; auto.
  - eapply Permutation_NoDup; [apply Permutation_map, Permutation_sym, HP|auto].
  - intros i p. rewrite HP. apply B.
Qed.
Lemma C57_position_is_height_fact : forall h : hsrc R, 0 <= elementHeight h ->
  IZR (position h) <= 12 * elementHeight h < IZR (position h) + 1 /\ forall h', 0 <= elementHeight h' -> elementHeight h <= elementHeight h' -> (position h <= position h')%Z.
Proof.
  intros h Hh. assert (HP : forall g, 0 <= elementHeight g -> IZR (position g) <= 12 * elementHeight g < IZR (position g) + 1).
  { intros g Hg. unfold position, resPos. fold (elementHeight g). unfold CONDENSITY_SIZE. num_simpl. rewrite ?nofN_R. change (INR 12) with (INR 12).
    replace (INR 12) with 12 by (cbn; lra). rewrite Rtrunc_nonneg by lra. apply Rfloor_spec. }
  split; auto. intros h' Hh' HL. pose proof (HP _ Hh). pose proof (HP _ Hh'). destruct (Z.le_gt_cases (position h) (position h')) as [HZ|HZ]; auto.
  assert (position h' + 1 <= position h)%Z by lia. apply IZR_le in H1. rewrite plus_IZR in H1. lra.
Qed.

Lemma numRes_length (w : hpwh R) : mapOK (w_hs w) (w_resMap w) -> numRes w = length (w_resMap w).
Proof.
  intros HM. rewrite (Permutation_length (resPoints_mapOK_perm _ _ HM)). unfold numRes. generalize (w_hs w), 0%nat. induction l as [|h l IH]; intros i; cbn; auto.
  destruct (isRes h); cbn; rewrite (IH (S i)); auto.
Qed.
Lemma filter_seq_perm (Q : nat -> bool) (l : list nat) k : NoDup l -> In k l -> Q k = true ->
  Permutation (k :: filter (fun j => negb (Nat.eqb k j) && Q j)%bool l) (filter Q l).
Proof.
  intros HN HI HQ. apply NoDup_Permutation.
  - constructor; [|apply NoDup_filter; auto]. intros HF. apply filter_In in HF. destruct HF as (_ & HF). rewrite Nat.eqb_refl in HF. discriminate.
  - apply NoDup_filter; auto.
  - intros j. cbn [In]. rewrite !filter_In. destruct (Nat.eq_dec k j) as [->|HJ]; [tauto|].
    replace (Nat.eqb k j) with false by (symmetry; apply Nat.eqb_neq; auto). cbn. intuition.
Qed.
Lemma map_nth_seq {A} (d : A) (m : list A) : map (fun k => nth k m d) (seq 0 (length m)) = m.
Proof.
  induction m as [|x m IH]; cbn; auto. f_equal. rewrite <- seq_shift, map_map. exact IH.
Qed.
Lemma filter_map_comm {A B} (f : A -> B) (P : B -> bool) l : filter P (map f l) = map f (filter (fun x => P (f x)) l).
Proof. induction l as [|x l IH]; cbn; auto. destruct (P (f x)); cbn; rewrite IH; auto. Qed.
Lemma sameHeight_perm m which : (which < length m)%nat -> exists ixs, sameHeight m (length m) which = Ok ixs /\
  Permutation ixs (map fst (filter (fun q => Z.eqb (snd q) (snd (nth which m (0, 0)%Z))) m)).
Proof.
  intros HW. unfold sameHeight. rewrite (nth_error_nth' m (0, 0)%Z HW). destruct (nth which m (0, 0)%Z) as [ix pos] eqn:EN.
  rewrite Nat.ltb_irrefl. eexists. split; [reflexivity|]. cbn [snd].
  transitivity (map (fun k => fst (nth k m (0, 0)%Z)) (which :: filter (fun k => negb (Nat.eqb which k) && Z.eqb (snd (nth k m (0, 0)%Z)) pos)%bool (seq 0 (length m)))).
  { cbn [map]. rewrite EN. reflexivity. }
  etransitivity; [apply Permutation_map, filter_seq_perm with (Q := fun k => Z.eqb (snd (nth k m (0, 0)%Z)) pos)|].
  - apply seq_NoDup.
  - apply in_seq. lia.
  - rewrite EN. apply Z.eqb_refl.
  - assert (HF : filter (fun q => Z.eqb (snd q) pos) m = map (fun k => nth k m (0, 0)%Z) (filter (fun k => Z.eqb (snd (nth k m (0, 0)%Z)) pos) (seq 0 (length m)))).
    { pose proof (filter_map_comm (fun k => nth k m (0, 0)%Z) (fun q => Z.eqb (snd q) pos) (seq 0 (length m))) as HH. rewrite map_nth_seq in HH. exact HH. }
    rewrite HF, map_map. reflexivity.
Qed.
(** the elements at a position *)
Definition atPos (pos : Z) (h : hsrc R) : bool := (isRes h && Z.eqb (position h) pos)%bool.
Definition validIx (hs : list (hsrc R)) (z : Z) : Prop := exists k h, z = Z.of_nat k /\ isElemAt hs k h.
Lemma ixs_spec hs m pos ixs : mapOK hs m -> Permutation ixs (map fst (filter (fun q => Z.eqb (snd q) pos) m)) ->
  forall z, In z ixs <-> exists k h, z = Z.of_nat k /\ nth_error hs k = Some h /\ atPos pos h = true.
Proof.
  intros [_ B _] HP z. rewrite HP, in_map_iff. split.
  - intros ([i p] & <- & HI). apply filter_In in HI. destruct HI as (HI & EP). apply B in HI. destruct HI as (k & h & E1 & (E2 & E4) & E3).
    exists k, h. splits; auto. unfold atPos, isRes. rewrite E4. cbn in *. congruence.
  - intros (k & h & E1 & E2 & E3). unfold atPos, isRes in E3. destruct (h_type h) eqn:ET; [discriminate|]. cbn in E3. exists (z, position h). split; auto.
    apply filter_In. split; auto. apply B. exists k, h. splits; auto. split; auto.
Qed.
Lemma setPowers_spec (kw : R) : forall ixs (w : hpwh R), (forall z, In z ixs -> validIx (w_hs w) z) ->
  exists hs', setPowers kw ixs w = (Ok tt, set_w_hs hs' w) /\
  forall k, nth_error hs' k = option_map (fun h => if existsb (Z.eqb (Z.of_nat k)) ixs then set_h_power kw h else h) (nth_error (w_hs w) k).
Proof.
  induction ixs as [|z ixs IH]; intros w HV; cbn [setPowers].
  - exists (w_hs w). split; [unfold ret; destruct w; reflexivity|]. intros k. cbn. destruct (nth_error (w_hs w) k); reflexivity.
  - destruct (HV z (or_introl eq_refl)) as (k0 & h0 & -> & E0 & T0). unfold setPowerAt, bind, get. rewrite Nat2Z.id, E0. unfold isRes at 1. rewrite T0.
    replace (0 <=? Z.of_nat k0)%Z with true by (symmetry; apply Z.leb_le; lia). cbn [andb]. unfold modHS, modify.
    set (w1 := set_w_hs _ w).
    assert (E1 : forall k, nth_error (w_hs w1) k = if Nat.eqb k k0 then Some (set_h_power kw h0) else nth_error (w_hs w) k).
    { intros k. subst w1. wsimpl. unfold updHS. rewrite E0. destruct (Nat.eqb k k0) eqn:EK.
      - apply Nat.eqb_eq in EK. subst. apply nth_error_upd_same. apply nth_error_Some. congruence.
      - apply Nat.eqb_neq in EK. apply nth_error_upd_other. auto. }
    destruct (IH w1) as (hs' & E2 & E3).
    { intros z HI. destruct (HV z (or_intror HI)) as (k & h & -> & Ek & Tk). exists k. destruct (Nat.eq_dec k k0) as [->|HN].
      - exists (set_h_power kw h0). split; auto. split; [rewrite E1, Nat.eqb_refl; auto|auto].
      - exists h. split; auto. split; auto. rewrite E1. replace (Nat.eqb k k0) with false by (symmetry; apply Nat.eqb_neq; auto). auto. }
    exists hs'. split; [rewrite E2; subst w1; destruct w; reflexivity|]. intros k. rewrite E3, E1. cbn [existsb].
    destruct (Nat.eqb k k0) eqn:EK.
    + apply Nat.eqb_eq in EK. subst k. rewrite Z.eqb_refl, E0. cbn. destruct (existsb _ ixs); [|reflexivity]. destruct h0; reflexivity.
    + apply Nat.eqb_neq in EK. replace (Z.of_nat k =? Z.of_nat k0)%Z with false by (symmetry; apply Z.eqb_neq; lia). reflexivity.
Qed.
Lemma nth_error_ext {A} (a b : list A) : (forall k, nth_error a k = nth_error b k) -> a = b.
Proof.
  revert b. induction a as [|x a IH]; intros [|y b] HH; auto; try (specialize (HH 0%nat); discriminate).
  f_equal; [specialize (HH 0%nat); cbn in HH; congruence|]. apply IH. intros k. apply (HH (S k)).
Qed.
Lemma C57_set_capacity_fact : forall (w : hpwh R) p which, mapOK (w_hs w) (w_resMap w) -> w_canScale w = true -> 0 <= p -> (which < numRes w)%nat ->
  setResistanceCapacity p (Z.of_nat which) U_KW w =
  (Ok tt, set_w_hs (map (fun h => if atPos (snd (nth which (w_resMap w) (0, 0)%Z)) h then set_h_power p h else h) (w_hs w)) w).
Proof.
  intros w p which HM HC Hp HW. pose proof (numRes_length w HM) as HL. unfold setResistanceCapacity, bind at 1, get. rewrite HC. cbn [negb].
  replace (Nat.eqb (numRes w) 0) with false by (symmetry; apply Nat.eqb_neq; lia).
  replace (Z.of_nat which <? -1)%Z with false by (symmetry; apply Z.ltb_ge; lia).
  replace (Z.of_nat which >? Z.of_nat (numRes w) - 1)%Z with false by (rewrite Z.gtb_ltb; symmetry; apply Z.ltb_ge; lia). cbn [orb].
  num_simpl. replace (Rltb p 0) with false by (symmetry; apply Rltb_false; lra). unfold lift at 1, bind at 1.
  replace (Z.of_nat which =? -1)%Z with false by (symmetry; apply Z.eqb_neq; lia). rewrite Nat2Z.id, HL.
  destruct (sameHeight_perm (w_resMap w) which) as (ixs & E1 & HP); [lia|]. unfold bind at 1, lift at 1. rewrite E1.
  set (pos := snd (nth which (w_resMap w) (0, 0)%Z)) in *. pose proof (ixs_spec _ _ _ _ HM HP) as HS.
  destruct (setPowers_spec (KW_TO_W p / 1000) ixs w) as (hs' & E2 & E3).
  { intros z HI. apply HS in HI. destruct HI as (k & h & Ez & Ek & EA). exists k, h. split; auto. split; auto. unfold atPos, isRes in EA. destruct (h_type h); auto; discriminate. }
  rewrite E2. f_equal. f_equal. apply nth_error_ext. intros k. rewrite E3, nth_error_map. destruct (nth_error (w_hs w) k) as [h|] eqn:Ek; cbn [option_map]; auto. f_equal.
  replace (KW_TO_W p / 1000) with p by (unfold KW_TO_W; num_simpl; field).
  destruct (atPos pos h) eqn:EA.
  - replace (existsb (Z.eqb (Z.of_nat k)) ixs) with true; auto. symmetry. apply existsb_exists. exists (Z.of_nat k). split; [apply HS; eauto|apply Z.eqb_refl].
  - destruct (existsb (Z.eqb (Z.of_nat k)) ixs) eqn:EX; auto. apply existsb_exists in EX. destruct EX as (z & HI & EZ). apply Z.eqb_eq in EZ. subst z.
    apply HS in HI. destruct HI as (k' & h' & Ez & Ek' & EA'). apply Nat2Z.inj in Ez. subst k'. congruence.
Qed.
Lemma Rsum_perm a b : Permutation a b -> Rsum a = Rsum b.
Proof. unfold Rsum. induction 1; cbn [fold_right] in *; lra. Qed.
Lemma Rsum_cons x l : Rsum (x :: l) = x + Rsum l.
Proof. reflexivity. Qed.
Definition pw (hs : list (hsrc R)) (z : Z) : R := match nth_error hs (Z.to_nat z) with Some h => 1000 * h_power h | None => 0 end.
Lemma sumPowers_eq (w : hpwh R) : forall ixs acc, (forall z, In z ixs -> validIx (w_hs w) z) -> sumPowers w ixs acc = Ok (acc + Rsum (map (pw (w_hs w)) ixs)).
Proof.
  induction ixs as [|z ixs IH]; intros acc HV; cbn [sumPowers map]; [f_equal; unfold Rsum; cbn; lra|]. rewrite Rsum_cons. destruct (HV z (or_introl eq_refl)) as (k & h & -> & Ek & Tk).
  unfold powerAt, pw at 1. rewrite Nat2Z.id, Ek. unfold isRes. rewrite Tk. replace (0 <=? Z.of_nat k)%Z with true by (symmetry; apply Z.leb_le; lia).
  cbn [andb obind]. rewrite IH by (intros; apply HV; right; auto). f_equal. num_simpl. lra.
Qed.
Lemma resPoints_sum pos : forall suf pre, Rsum (map (pw (pre ++ suf)) (map fst (filter (fun q => Z.eqb (snd q) pos) (resPoints suf (length pre))))) =
  1000 * Rsum (map h_power (filter (atPos pos) suf)).
Proof.
  induction suf as [|x suf IH]; intros pre; cbn [resPoints filter map]; [unfold Rsum; cbn; lra|].
  assert (HA : pre ++ x :: suf = (pre ++ [x]) ++ suf) by (rewrite <- app_assoc; auto).
  assert (HL : S (length pre) = length (pre ++ [x])) by (rewrite app_length; cbn; lia). specialize (IH (pre ++ [x])). rewrite <- HL, <- HA in IH.
  unfold atPos at 1. destruct (isRes x); cbn [andb]; [|exact IH]. cbn [filter snd]. fold (position x). destruct (Z.eqb (position x) pos); cbn [map fst]; [|exact IH].
  rewrite !Rsum_cons, IH. unfold pw at 1. rewrite Nat2Z.id, nth_error_app2, Nat.sub_diag by lia. cbn. lra.
Qed.
Lemma C57_get_capacity_fact : forall (w : hpwh R) which, mapOK (w_hs w) (w_resMap w) -> (which < numRes w)%nat ->
  getResistanceCapacity (Z.of_nat which) U_KW w = Ok (Rsum (map h_power (filter (atPos (snd (nth which (w_resMap w) (0, 0)%Z))) (w_hs w)))).
Proof.
  intros w which HM HW. pose proof (numRes_length w HM) as HL. unfold getResistanceCapacity.
  replace (Nat.eqb (numRes w) 0) with false by (symmetry; apply Nat.eqb_neq; lia).
  replace (Z.of_nat which <? -1)%Z with false by (symmetry; apply Z.ltb_ge; lia).
  replace (Z.of_nat which >? Z.of_nat (numRes w) - 1)%Z with false by (rewrite Z.gtb_ltb; symmetry; apply Z.ltb_ge; lia). cbn [orb].
  replace (Z.of_nat which =? -1)%Z with false by (symmetry; apply Z.eqb_neq; lia). rewrite Nat2Z.id, HL.
  destruct (sameHeight_perm (w_resMap w) which) as (ixs & E1 & HP); [lia|]. rewrite E1. cbn [obind].
  set (pos := snd (nth which (w_resMap w) (0, 0)%Z)) in *. pose proof (ixs_spec _ _ _ _ HM HP) as HS.
  rewrite sumPowers_eq. 2:{ intros z HI. apply HS in HI. destruct HI as (k & h & Ez & Ek & EA). exists k, h. split; auto. split; auto. unfold atPos, isRes in EA. destruct (h_type h); auto; discriminate. }
  cbn [obind]. f_equal.
  assert (HQ : Rsum (map (pw (w_hs w)) ixs) = 1000 * Rsum (map h_power (filter (atPos pos) (w_hs w)))).
  { rewrite <- (resPoints_sum pos (w_hs w) []). cbn [app length]. apply Rsum_perm, Permutation_map. rewrite HP. apply Permutation_map.
    assert (HF : forall a b : list (Z * Z), Permutation a b -> Permutation (filter (fun q => Z.eqb (snd q) pos) a) (filter (fun q => Z.eqb (snd q) pos) b)).
    { induction 1; cbn; auto; repeat (destruct (Z.eqb _ _)); auto; try apply perm_swap. etransitivity; eauto. }
    apply HF, resPoints_mapOK_perm, HM. }
  rewrite HQ. unfold W_TO_KW. num_simpl. field.
Qed.
Lemma C57_read_back_fact : forall (w w' : hpwh R) p which, mapOK (w_hs w) (w_resMap w) -> w_canScale w = true -> 0 <= p -> (which < numRes w)%nat ->
  setResistanceCapacity p (Z.of_nat which) U_KW w = (Ok tt, w') ->
  getResistanceCapacity (Z.of_nat which) U_KW w' = Ok (INR (length (filter (atPos (snd (nth which (w_resMap w) (0, 0)%Z))) (w_hs w))) * p).
Proof.
  intros w w' p which HM HC Hp HW E. rewrite C57_set_capacity_fact in E by auto. inversion E; subst w'. clear E.
  set (pos := snd (nth which (w_resMap w) (0, 0)%Z)). set (f := fun h : hsrc R => if atPos pos h then set_h_power p h else h).
  assert (HF : forall h, isRes (f h) = isRes h /\ position (f h) = position h /\ h_type (f h) = h_type h).
  { intros h. unfold f. destruct (atPos pos h); auto. }
  assert (HM' : mapOK (w_hs (set_w_hs (map f (w_hs w)) w)) (w_resMap (set_w_hs (map f (w_hs w)) w))).
  { wsimpl. destruct HM as [A B D]. split; auto. intros i q. rewrite B. unfold isElemAt. split; intros (k & h & E1 & (E2 & E3) & E4).
    - exists k, (f h). destruct (HF h) as (F1 & F2 & F3). split; [auto|]. split; [split; [rewrite nth_error_map, E2; auto|congruence]|congruence].
    - rewrite nth_error_map in E2. destruct (nth_error (w_hs w) k) as [g|] eqn:Eg; [|discriminate]. inversion E2; subst h. destruct (HF g) as (F1 & F2 & F3).
      exists k, g. split; [auto|]. split; [split; congruence|congruence]. }
  rewrite C57_get_capacity_fact; auto.
  - wsimpl. fold pos. f_equal. generalize (w_hs w). induction l as [|h l IH]; cbn [map filter]; [unfold Rsum; cbn; lra|].
    assert (EA : atPos pos (f h) = atPos pos h) by (unfold atPos; destruct (HF h) as (-> & -> & _); auto). rewrite EA. destruct (atPos pos h) eqn:EB; [|exact IH].
    cbn [map length]. rewrite Rsum_cons, IH, S_INR. unfold f. rewrite EB. wsimpl. lra.
  - unfold numRes in *. wsimpl. assert (HN : length (filter isRes (map f (w_hs w))) = length (filter isRes (w_hs w))); [|rewrite HN; auto].
    generalize (w_hs w). induction l as [|h l IH]; cbn; auto. destruct (HF h) as (-> & _). destruct (isRes h); cbn; auto.
Qed.
Lemma C57_all_elements_fact : forall (w : hpwh R) p, w_canScale w = true -> 0 <= p -> (0 < numRes w)%nat ->
  setResistanceCapacity p (-1) U_KW w = (Ok tt, set_w_hs (map (fun h => if isRes h then set_h_power p h else h) (w_hs w)) w) /\
  getResistanceCapacity (-1) U_KW w = Ok (Rsum (map h_power (filter isRes (w_hs w)))).
Proof.
  intros w p HC Hp HW. split.
  - unfold setResistanceCapacity, bind at 1, get. rewrite HC. cbn [negb].
    replace (Nat.eqb (numRes w) 0) with false by (symmetry; apply Nat.eqb_neq; lia). replace (-1 >? Z.of_nat (numRes w) - 1)%Z with false by (rewrite Z.gtb_ltb; symmetry; apply Z.ltb_ge; lia).
    cbn [orb Z.ltb Z.compare Pos.compare Pos.compare_cont CompOpp]. num_simpl. replace (Rltb p 0) with false by (symmetry; apply Rltb_false; lra). unfold lift at 1, bind at 1. cbn [Z.eqb Pos.eqb]. unfold modify.
    f_equal. f_equal. apply map_ext. intros h. replace (KW_TO_W p / 1000) with p by (unfold KW_TO_W; num_simpl; field). reflexivity.
  - unfold getResistanceCapacity. replace (Nat.eqb (numRes w) 0) with false by (symmetry; apply Nat.eqb_neq; lia).
    replace (-1 >? Z.of_nat (numRes w) - 1)%Z with false by (rewrite Z.gtb_ltb; symmetry; apply Z.ltb_ge; lia). cbn [orb Z.ltb Z.compare Pos.compare Pos.compare_cont CompOpp Z.eqb Pos.eqb obind]. f_equal.
    assert (HF : forall l acc, fold_left (fun a (h : hsrc R) => if isRes h then nadd a (nmul (nofZ 1000) (h_power h)) else a) l acc = acc + 1000 * Rsum (map h_power (filter isRes l))).
    { induction l as [|h l IH]; intros acc; cbn [fold_left filter map]; [unfold Rsum; cbn; lra|]. rewrite IH. destruct (isRes h); cbn [map]; rewrite ?Rsum_cons; num_simpl; lra. }
    rewrite HF. unfold W_TO_KW. num_simpl. field.
Qed.
Lemma C57_example_fact : let w := calcDerivedValues (exUnit (T:=R) [20; 20; 20; 20]) in
  mapOK (w_hs w) (w_resMap w) /\ w_canScale w = true /\ numRes w = 2%nat.
Proof.
  cbv zeta. split; [exact (proj1 (C57_map_lists_elements_in_order_fact (exUnit (T:=R) [20; 20; 20; 20])))|].
  split; [reflexivity|]. unfold numRes.
  destruct (derivedOf_keeps (map (deriveHS (numNodes (w_tank (exUnit (T:=R) [20; 20; 20; 20])))) (w_hs (exUnit (T:=R) [20; 20; 20; 20]))) (calcSizeConstants (w_tank (exUnit (T:=R) [20; 20; 20; 20]))) (exUnit (T:=R) [20; 20; 20; 20])) as (_ & E).
  rewrite derived_form, E. reflexivity.
Qed.

(** ** C58 *)
Lemma poss_free (w : hpwh R) x y : w_setFixed w = false -> setpointPossible x (set_w_setpoint y w) = setpointPossible x w.
Proof. intros HF. unfold setpointPossible, hasCompressor. wsimpl. rewrite HF. reflexivity. Qed.
Lemma poss_fixed (w : hpwh R) x b m : w_setFixed w = true -> setpointPossible x w = Ok (b, m) -> (b = true -> x = w_setpoint w) /\ (x = w_setpoint w -> b = true).
Proof.
  intros HF. unfold setpointPossible. rewrite HF. intros E. inversion E. num_simpl. unfold Reqb'. destruct (Req_EM_T _ _); split; auto; discriminate.
Qed.
Lemma poss_total (w : hpwh R) x y b m : setpointPossible x w = Ok (b, m) -> exists b' m', setpointPossible y w = Ok (b', m').
Proof.
  unfold setpointPossible. destruct (w_setFixed w); [eauto|]. destruct (hasCompressor w); [destruct (nth_error _ _); [|discriminate]|]; cbn [obind]; intros _.
  all: destruct (Z.leb _ _); [eauto|]; destruct (_ && _)%bool; eauto.
Qed.
Lemma setSetpointC_ok (w : hpwh R) x m : setpointPossible x w = Ok (true, m) -> setSetpointC x w = (Ok tt, set_w_setpoint x w).
Proof. intros E. unfold setSetpointC, bind, get, lift. rewrite E. reflexivity. Qed.
Lemma set_same (w : hpwh R) : set_w_setpoint (w_setpoint w) w = w.
Proof. destruct w. reflexivity. Qed.
Lemma set_twice (w : hpwh R) x y : set_w_setpoint x (set_w_setpoint y w) = set_w_setpoint x w.
Proof. destruct w. reflexivity. Qed.
(** the setpoint at which the capacity is evaluated *)
Definition evalAt (w : hpwh R) (h : hsrc R) (o s : R) : Prop :=
  match h_config h with
  | External => exists b m, setpointPossible o w = Ok (b, m) /\ s = if b then o else w_setpoint w
  | _ => s = w_setpoint w
  end.
Definition waterIn (h : hsrc R) (i o : R) : R :=
  match h_config h with External => if h_multipass h then (o + i) / 2 else i | _ => i end.
Lemma capPerf_inv (w w1 : hpwh R) h a i o p : capPerf h a i o w = (Ok p, w1) ->
  exists s s1, evalAt w h o s /\ getPerformance (set_w_setpoint s w) h a (waterIn h i o) = Ok p /\ w1 = set_w_setpoint s1 w /\
    (w_setFixed w = true \/ s = w_setpoint w -> s1 = w_setpoint w) /\ (forall m, setpointPossible (w_setpoint w) w = Ok (true, m) -> s1 = w_setpoint w) /\ (s1 = s \/ s1 = w_setpoint w).
Proof.
  intros E. unfold capPerf in E. unfold evalAt, waterIn. destruct (h_config h) eqn:EC.
  1,2: unfold bind, get, lift in E; exists (w_setpoint w), (w_setpoint w); rewrite set_same; inversion E; subst; splits; auto.
  apply bind_inv in E. destruct E as (w0 & w0' & E0 & E). unfold get in E0. inversion E0; subst w0 w0'. clear E0.
  apply bind_inv in E. destruct E as ([b m] & w2 & E0 & E). apply lift_inv in E0. destruct E0 as (-> & EP).
  apply bind_inv in E. destruct E as ([] & w2 & E0 & E).
  assert (EW : w2 = set_w_setpoint (if b then o else w_setpoint w) w).
  { destruct b; unfold when, ret in E0; [rewrite (setSetpointC_ok _ _ _ EP) in E0; inversion E0; auto|inversion E0; rewrite set_same; auto]. }
  set (s := if b then o else w_setpoint w) in *. exists s.
  apply bind_inv in E. destruct E as (w0 & w0' & E1 & E). unfold get in E1. inversion E1; subst w0 w0'. clear E1.
  apply bind_inv in E. destruct E as (p' & w3 & E1 & E). apply lift_inv in E1. destruct E1 as (-> & EG).
  apply bind_inv in E. destruct E as ([b' m'] & w3 & E1 & E). apply lift_inv in E1. destruct E1 as (-> & EP').
  apply bind_inv in E. destruct E as ([] & w3 & E1 & E). unfold ret in E. inversion E; subst p' w3. clear E.
  assert (EW1 : w1 = set_w_setpoint (if b' then w_setpoint w else s) w).
  { destruct b'; unfold when, ret in E1; [rewrite (setSetpointC_ok _ _ _ EP') in E1; inversion E1; rewrite EW, set_twice; auto|inversion E1; subst; auto]. }
  exists (if b' then w_setpoint w else s). rewrite EW in EG, EP'. split; [exists b, m; auto|]. split; [exact EG|]. split; [auto|]. split; [|split].
  - intros [HF|HS]; destruct b'; auto. subst s. destruct b; auto. apply (poss_fixed _ _ _ _ HF EP). auto.
  - intros m2 E2. destruct b'; auto. destruct (w_setFixed w) eqn:HF.
    + subst s. destruct b; auto. apply (poss_fixed _ _ _ _ HF EP). auto.
    + rewrite poss_free in EP' by auto. congruence.
  - destruct b'; auto.
Qed.
Lemma capPerf_make (w : hpwh R) h a i o s p : evalAt w h o s -> getPerformance (set_w_setpoint s w) h a (waterIn h i o) = Ok p ->
  exists w1, capPerf h a i o w = (Ok p, w1).
Proof.
  intros HE EG. unfold evalAt, waterIn in *. unfold capPerf. destruct (h_config h) eqn:EC.
  1,2: subst s; rewrite set_same in EG; unfold bind, get, lift; rewrite EG; eauto.
  destruct HE as (b & m & EP & ->). unfold bind at 1, get at 1, bind at 1, lift at 1. rewrite EP. unfold bind at 1.
  assert (EW : when b (setSetpointC o) w = (Ok tt, set_w_setpoint (if b then o else w_setpoint w) w)).
  { destruct b; unfold when, ret; [apply (setSetpointC_ok _ _ _ EP)|rewrite set_same; auto]. }
  rewrite EW. unfold bind at 1, get at 1, bind at 1, lift at 1. num_simpl. num_simpl. rewrite EG. unfold bind at 1, lift at 1.
  set (w1 := set_w_setpoint _ w).
  assert (EB : exists b' m', setpointPossible (w_setpoint w) w1 = Ok (b', m')).
  { eapply poss_total with (x := o). instantiate (1 := snd (match setpointPossible o w1 with Ok r => r | _ => (true, 0) end)).
    instantiate (1 := fst (match setpointPossible o w1 with Ok r => r | _ => (true, 0) end)). subst w1. destruct (w_setFixed w) eqn:HF.
    - unfold setpointPossible. wsimpl. rewrite HF. reflexivity.
    - rewrite poss_free, EP by auto. reflexivity. }
  destruct EB as (b' & m' & EB). rewrite EB. unfold bind at 1. destruct b'; unfold when; [rewrite (setSetpointC_ok _ _ _ EB)|]; unfold ret; eauto.
Qed.
Lemma query_inv (w w1 : hpwh R) air i o pu tu c : getCompressorCapacity air i o pu tu w = (Ok c, w1) ->
  exists airC iC oC h p, hasCompressor w = true /\ tempToC air tu = Ok airC /\ tempToC i tu = Ok iC /\ tempToC o tu = Ok oC /\ compressor w = Ok h /\
    (((airC + tolT) <? h_minT h) || (airC >? (h_maxT h + tolT)))%num%bool = false /\ (oC >? ((h_maxSet h - h_shxHot h) + tolT))%num = false /\
    capPerf h airC iC oC w = (Ok p, w1) /\ powerFromW (p_out p) pu = Ok c.
Proof.
  intros E. unfold getCompressorCapacity in E. apply bind_inv in E. destruct E as (w0 & w0' & E0 & E). unfold get in E0. inversion E0; subst w0 w0'. clear E0.
  destruct (hasCompressor w); [|discriminate]. cbn [negb] in E.
  apply bind_inv in E. destruct E as (airC & w2 & E0 & E). apply lift_inv in E0. destruct E0 as (-> & E1).
  apply bind_inv in E. destruct E as (iC & w2 & E0 & E). apply lift_inv in E0. destruct E0 as (-> & E2).
  apply bind_inv in E. destruct E as (oC & w2 & E0 & E). apply lift_inv in E0. destruct E0 as (-> & E3).
  apply bind_inv in E. destruct E as (h & w2 & E0 & E). apply lift_inv in E0. destruct E0 as (-> & E4).
  destruct (_ || _)%bool eqn:B1; [discriminate|]. destruct (nltb _ oC) eqn:B2; [discriminate|].
  apply bind_inv in E. destruct E as (p & w2 & E0 & E). apply lift_inv in E. destruct E as (-> & E5). exists airC, iC, oC, h, p. splits; auto.
Qed.
Lemma query_make (w w1 : hpwh R) air i o pu tu c airC iC oC h p : hasCompressor w = true -> tempToC air tu = Ok airC -> tempToC i tu = Ok iC -> tempToC o tu = Ok oC -> compressor w = Ok h ->
    (((airC + tolT) <? h_minT h) || (airC >? (h_maxT h + tolT)))%num%bool = false -> (oC >? ((h_maxSet h - h_shxHot h) + tolT))%num = false ->
    capPerf h airC iC oC w = (Ok p, w1) -> powerFromW (p_out p) pu = Ok c -> getCompressorCapacity air i o pu tu w = (Ok c, w1).
Proof.
  intros A1 A2 A3 A4 A5 A6 A7 A8 A9. unfold getCompressorCapacity, bind at 1, get. rewrite A1. cbn [negb]. unfold bind at 1, lift at 1. rewrite A2.
  unfold bind at 1, lift at 1. rewrite A3. unfold bind at 1, lift at 1. rewrite A4. unfold bind at 1, lift at 1. rewrite A5, A6, A7. unfold bind at 1. rewrite A8. unfold lift. rewrite A9. auto.
Qed.
Lemma C58_query_effect_fact : forall (w w' : hpwh R) air i o pu tu c, getCompressorCapacity air i o pu tu w = (Ok c, w') ->
  (exists s, w' = set_w_setpoint s w) /\ (forall m, isNewSetpointPossible (w_setpoint w) U_C w = Ok (true, m) -> w' = w).
Proof.
  intros w w' air i o pu tu c E. apply query_inv in E. destruct E as (airC & iC & oC & h & p & _ & _ & _ & _ & _ & _ & _ & E & _).
  apply capPerf_inv in E. destruct E as (s & s1 & _ & _ & -> & _ & HR & _). split; [eauto|]. intros m EP.
  unfold isNewSetpointPossible in EP. cbn [tempToC obind] in EP. destruct (setpointPossible (w_setpoint w) w) as [[b m1]| | |] eqn:E2; try discriminate.
  cbn in EP. inversion EP; subst. rewrite (HR m) by auto. apply set_same.
Qed.
Lemma perf_scaled (w : hpwh R) h a x k p : getPerformance w h a x = Ok p ->
  exists p', getPerformance w (set_h_inScale (h_inScale h * k) (set_h_copScale (h_copScale h * 1) h)) a x = Ok p' /\
  p_out p' = k * p_out p /\ p_cop p' = p_cop p /\ (h_rdPwr h <= 0 -> p_in p' = k * p_in p).
Proof.
  intros E. unfold getPerformance in *. wsimpl. cbv zeta in *. rewrite Rmult_1_r. num_simpl. num_simpl.
  destruct (if h_doDefrost h then _ else _) as [cop| | |]; try discriminate. cbn [obind] in *. apply (f_equal (fun q => match q with Ok r => r | _ => p end)) in E. cbv beta iota in E. subst p. eexists. split; [reflexivity|]. cbn [p_out p_cop p_in].
  split; [num_simpl; ring|]. split; [reflexivity|]. intros HR. replace (Rltb 0 (h_rdPwr h)) with false by (symmetry; apply Rltb_false; lra). cbn [andb]. num_simpl. ring.
Qed.
Lemma setScale_inv (w w' : hpwh R) k : setScaleCapacityCOP k (nofZ 1) w = (Ok tt, w') ->
  exists h, compressor w = Ok h /\ 0 < k /\ w' = set_w_hs (updHS (w_hs w) (Z.to_nat (w_compIx w)) (fun h => set_h_inScale (h_inScale h * k) (set_h_copScale (h_copScale h * 1) h))) w.
Proof.
  intros E. unfold setScaleCapacityCOP in E. apply bind_inv in E. destruct E as (w0 & w0' & E0 & E). unfold get in E0. inversion E0; subst w0 w0'. clear E0.
  destruct (negb (w_canScale w)); [discriminate|]. destruct (negb (hasCompressor w)); [discriminate|]. num_simpl.
  destruct (Rleb k 0) eqn:EK; [discriminate|]. apply Rleb_false in EK. cbn [orb] in E. destruct (Rleb 1 0); [discriminate|].
  apply bind_inv in E. destruct E as (h & w2 & E0 & E). apply lift_inv in E0. destruct E0 as (-> & E1). exists h. splits; auto. unfold modHS, modify in E. inversion E. reflexivity.
Qed.
Lemma compressor_upd (w : hpwh R) h f s : compressor w = Ok h ->
  compressor (set_w_hs (updHS (w_hs w) (Z.to_nat (w_compIx w)) f) (set_w_setpoint s w)) = Ok (f h).
Proof.
  unfold compressor. wsimpl. destruct (Z.ltb _ _); [discriminate|]. destruct (nth_error (w_hs w) _) as [g|] eqn:E; [|discriminate]. intros E1. inversion E1; subst g.
  unfold updHS. rewrite E, nth_error_upd_same; auto. apply nth_error_Some. congruence.
Qed.
Lemma poss_upd (w : hpwh R) h f s x : compressor w = Ok h -> h_maxSet (f h) = h_maxSet h -> h_shxHot (f h) = h_shxHot h ->
  setpointPossible x (set_w_hs (updHS (w_hs w) (Z.to_nat (w_compIx w)) f) (set_w_setpoint s w)) = setpointPossible x (set_w_setpoint s w).
Proof.
  unfold compressor, setpointPossible, hasCompressor. wsimpl. destruct (Z.ltb _ _); [discriminate|]. destruct (nth_error (w_hs w) _) as [g|] eqn:E; [|discriminate]. intros E1 M1 M2.
  inversion E1; subst g. unfold updHS. rewrite E, nth_error_upd_same by (apply nth_error_Some; congruence). rewrite M1, M2. reflexivity.
Qed.
Lemma powerFromW_scale (x : R) pu c k : powerFromW x pu = Ok c -> powerFromW (k * x) pu = Ok (k * c).
Proof. destruct pu; cbn [powerFromW]; intros E; inversion E; f_equal; unfold W_TO_BTUperH, W_TO_KW, KWH_TO_BTU, BTUperKWH, dec; num_simpl; field. Qed.
Lemma C58_round_trip_fact : forall (w w' : hpwh R) new air i o pu tu, setCompressorOutputCapacity new air i o pu tu w = (Ok tt, w') ->
  exists w'', getCompressorCapacity air i o pu tu w' = (Ok new, w'').
Proof.
  intros w w' new air i o pu tu E. unfold setCompressorOutputCapacity in E. apply bind_inv in E. destruct E as (old & w1 & E1 & E).
  apply bind_inv in E. destruct E as (k & w2 & E0 & E). apply lift_inv in E0. destruct E0 as (-> & E0).
  apply query_inv in E1. destruct E1 as (airC & iC & oC & h & p & A1 & A2 & A3 & A4 & A5 & A6 & A7 & A8 & A9).
  apply capPerf_inv in A8. destruct A8 as (s & s1 & HE & HG & -> & HS1 & _ & HS2).
  assert (Ek : old <> 0 /\ k = new / old).
  { unfold div_chk in E0. num_simpl. destruct (negb (Reqb' old 0)) eqn:EO; [|discriminate]. inversion E0. split; auto.
    cbn in EO. intros ->. unfold Reqb' in EO. destruct (Req_EM_T 0 0) in EO; [discriminate|congruence]. }
  destruct Ek as (HO & Ek).
  apply setScale_inv in E. destruct E as (h0 & E2 & Hk & ->). change (compressor (set_w_setpoint s1 w)) with (compressor w) in E2. rewrite A5 in E2. inversion E2; subst h0. clear E2.
  change (w_hs (set_w_setpoint s1 w)) with (w_hs w). change (w_compIx (set_w_setpoint s1 w)) with (w_compIx w).
  set (f := fun h : hsrc R => set_h_inScale (h_inScale h * k) (set_h_copScale (h_copScale h * 1) h)).
  destruct (perf_scaled _ _ _ _ k _ HG) as (p' & HG' & HO' & _). fold (f h) in HG'.
  pose proof (compressor_upd w h f s1 A5) as HC'. set (w' := set_w_hs _ _) in *.
  assert (HP : forall x, getPerformance (set_w_setpoint s w') (f h) airC x = getPerformance (set_w_setpoint s w) (f h) airC x) by reflexivity.
  assert (HE' : evalAt w' (f h) oC s).
  { unfold evalAt in *. assert (EC : h_config (f h) = h_config h) by reflexivity. rewrite EC. change (w_setpoint w') with s1. destruct (h_config h).
    1,2: rewrite HS1; auto.
    destruct HE as (b & m & EP & Es). destruct (w_setFixed w) eqn:HF.
    - exists b, m. assert (s1 = w_setpoint w) by auto. subst s1. unfold w'. rewrite (poss_upd w h f _ oC A5) by reflexivity. rewrite set_same. auto.
    - exists b, m. unfold w'. rewrite (poss_upd w h f _ oC A5) by reflexivity. rewrite poss_free by auto. split; auto. rewrite Es. destruct b; auto. symmetry. apply HS1. right. auto. }
  assert (EW : waterIn (f h) iC oC = waterIn h iC oC) by reflexivity.
  destruct (capPerf_make w' (f h) airC iC oC s p' HE') as (w'' & HQ); [rewrite EW, HP; exact HG'|].
  exists w''. eapply query_make; eauto. rewrite HO'. rewrite (powerFromW_scale _ _ _ k A9). f_equal. rewrite Ek. field. auto.
Qed.
Lemma C58_scaling_fact : forall (w w' : hpwh R) k, setScaleCapacityCOP k 1 w = (Ok tt, w') ->
  exists h h', compressor w = Ok h /\ compressor w' = Ok h' /\
  forall air x p, getPerformance w h air x = Ok p -> exists p', getPerformance w' h' air x = Ok p' /\ p_out p' = k * p_out p /\ p_cop p' = p_cop p /\ (h_rdPwr h <= 0 -> p_in p' = k * p_in p).
Proof.
  intros w w' k E. apply setScale_inv in E. destruct E as (h & E1 & _ & ->). exists h. eexists. split; auto. split.
  - pose proof (compressor_upd w h (fun h => set_h_inScale (h_inScale h * k) (set_h_copScale (h_copScale h * 1) h)) (w_setpoint w) E1) as HC. rewrite set_same in HC. exact HC.
  - intros air x p EP. destruct (perf_scaled w h air x k p EP) as (p' & A & B). exists p'. split; auto.
Qed.
(** the external example compressor alone, with a setpoint above what it can deliver *)
Definition exHot : hpwh R := set_w_compIx 0 (set_w_lowIx (-1) (set_w_setpoint 70 (exExtUnit false))).
Lemma C58_query_keeps_setpoint_refuted_fact : exists (w w' : hpwh R) air i o pu tu c,
  getCompressorCapacity air i o pu tu w = (Ok c, w') /\ w_setpoint w' <> w_setpoint w.
Proof.
  assert (P1 : setpointPossible 50 exHot = Ok (true, 60 - 0)).
  { unfold setpointPossible, exHot, hasCompressor. wsimpl. cbn [exExtUnit exUnit w_setFixed w_hs set_w_hs nth_error Z.to_nat exExt]. wsimpl. cbn [exExt exHS Z.leb Z.compare]. wsimpl. cbn [exHS h_maxSet h_shxHot Z.eqb Pos.eqb andb negb obind].
    num_simpl. replace (Rltb (60 - 0 + tolT) 50) with false; [reflexivity|]. symmetry. apply Rltb_false. unfold tolT, dec. num_simpl. lra. }
  assert (P2 : setpointPossible 70 (set_w_setpoint 50 exHot) = Ok (false, 60 - 0)).
  { unfold setpointPossible, exHot, hasCompressor. wsimpl. cbn [exExtUnit exUnit w_setFixed w_hs set_w_hs nth_error Z.to_nat exExt]. wsimpl. cbn [exExt exHS Z.leb Z.compare]. wsimpl. cbn [exHS h_maxSet h_shxHot Z.eqb Pos.eqb andb negb obind].
    num_simpl. replace (Rltb (60 - 0 + tolT) 70) with true; [reflexivity|]. symmetry. apply Rltb_true. unfold tolT, dec. num_simpl. lra. }
  assert (E : capPerf (exExt false) 20 10 50 exHot = (Ok (mkperf 500 1500 3), set_w_setpoint 50 exHot)).
  { unfold capPerf. change (h_config (exExt false)) with External. cbv iota. unfold bind at 1, get at 1, bind at 1, lift at 1. rewrite P1. unfold bind at 1, when at 1.
    rewrite (setSetpointC_ok _ _ _ P1). unfold bind at 1, get at 1, bind at 1, lift at 1. rewrite exExt_perf. unfold bind at 1, lift at 1.
    change (w_setpoint exHot) with 70. rewrite P2. reflexivity. }
  exists exHot, (set_w_setpoint 50 exHot), 20, 10, 50, U_KW, U_C. eexists. split.
  - eapply query_make; try reflexivity; [| |exact E].
    + change (h_minT (exExt false)) with (2 : R). change (h_maxT (exExt false)) with (50 : R). num_simpl. unfold tolT, dec. num_simpl.
      replace (Rltb (20 + _) 2) with false by (symmetry; apply Rltb_false; lra). replace (Rltb _ 20) with false by (symmetry; apply Rltb_false; lra). reflexivity.
    + change (h_maxSet (exExt false)) with (60 : R). change (h_shxHot (exExt false)) with (0 : R). num_simpl. unfold tolT, dec. num_simpl.
      apply Rltb_false. lra.
  - change (w_setpoint exHot) with 70. change (w_setpoint (set_w_setpoint 50 exHot)) with 50. lra.
Qed.
Lemma C58_example_fact : exists w', setCompressorOutputCapacity (T:=float) (fofZ 4) (fofZ 20) (fofZ 15) (fofZ 50) U_KW U_C (exUnit (map fofZ [20; 30; 45; 50]%Z)) = (Ok tt, w') /\
  fst (getCompressorCapacity (fofZ 20) (fofZ 15) (fofZ 50) U_KW U_C w') = Ok (fofZ 4).
Proof. eexists. split; [vm_compute; reflexivity|]. vm_compute. reflexivity. Qed.

(** ** C72 *)
Fixpoint mass (p : R) (w : list (R * R)) : R := match w with [] => 0 | (h, wt) :: r => wt * (h - p) + mass h r end.
Fixpoint moment (p : R) (w : list (R * R)) : R := match w with [] => 0 | (h, wt) :: r => wt * (h * h - p * p) / 2 + moment h r end.
(** mean height of the weight, as a fraction of the top height *)
Definition meanFraction (w : list (R * R)) : R := moment 0 w / mass 0 w / topHeight w.
Lemma wfold_eq : forall w a b p, fold_left (fun '(totWA, totW, prevH) '(h, wt) =>
    (nadd totWA (nmul (nmul wt (nsub h prevH)) (nmul (dec 5 10) (nadd h prevH))), nadd totW (nmul wt (nsub h prevH)), h)) w (a, b, p) =
  (a + moment p w, b + mass p w, match w with [] => p | _ => topHeight w end).
Proof.
  induction w as [|[h wt] r IH]; intros a b p; cbn [fold_left moment mass]; [f_equal; f_equal; lra|]. rewrite IH. unfold dec. num_simpl. f_equal; [f_equal; field|].
  destruct r as [|q r]; [reflexivity|]. unfold topHeight. cbn [last]. reflexivity.
Qed.
Lemma moment_bounds : forall w p H, 0 <= p -> ascending p w -> Forall (fun q => 0 <= snd q) w -> (forall q, In q w -> fst q <= H) ->
  0 <= mass p w /\ 0 <= moment p w <= H * mass p w /\ (Exists (fun q => 0 < snd q) w -> 0 < mass p w /\ 0 < moment p w < H * mass p w).
Proof.
  induction w as [|[h wt] r IH]; intros p H Hp HA HN HB; cbn [mass moment]; [split; [lra|]; split; [lra|]; intros HE; inversion HE|].
  destruct HA as (A1 & A2). inversion HN as [|? ? N1 N2]; subst. cbn in N1. assert (HH := HB (h, wt) (or_introl eq_refl)). cbn in HH.
  destruct (IH h H) as (I1 & I2 & I3); auto; [lra|intros q HQ; apply HB; right; auto|].
  assert (M : wt * (h * h - p * p) / 2 = wt * (h - p) * ((h + p) / 2)) by field. rewrite M.
  assert (W : 0 <= wt * (h - p)) by (apply Rmult_le_pos; lra). set (v := wt * (h - p)) in *.
  assert (V1 : 0 <= v * ((h + p) / 2)) by (apply Rmult_le_pos; lra). assert (V2 : v * ((h + p) / 2) <= H * v) by nra.
  split; [lra|]. split; [lra|]. intros HE. inversion HE as [? ? E1|? ? E1]; subst.
  - cbn in E1. assert (0 < v) by (unfold v; apply Rmult_lt_0_compat; lra). assert (0 < v * ((h + p) / 2)) by (apply Rmult_lt_0_compat; lra).
    assert (v * ((h + p) / 2) < v * H) by (apply Rmult_lt_compat_l; lra). lra.
  - destruct (I3 E1) as (J1 & J2). lra.
Qed.
Lemma meanFraction_bounds w : goodDist w -> 0 < meanFraction w < 1.
Proof.
  intros [N A B C]. pose proof (topHeight_pos _ A N) as HT. destruct (moment_bounds w 0 (topHeight w)) as (_ & _ & HM); auto; [lra|intros q HQ; eapply ascending_le_top; eauto|].
  destruct (HM C) as (M1 & M2). unfold meanFraction. assert (HD : moment 0 w / mass 0 w / topHeight w = moment 0 w / (topHeight w * mass 0 w)) by (field; lra). rewrite HD.
  assert (0 < topHeight w * mass 0 w) by nra. split; [apply Rdiv_lt_0_compat; lra|]. apply (Rmult_lt_reg_r (topHeight w * mass 0 w)); auto. unfold Rdiv. rewrite Rmult_assoc, Rinv_l by lra. lra.
Qed.
Lemma C72_logic_fraction_fact : forall (w : hpwh R) s d dec a c hts ctl,
  (goodDist d -> l_nodeWeightAvgFract w (TempLogic s (mkdist DWeighted d) dec a c hts ctl) = meanFraction d + 1 / 24 /\ 0 < meanFraction d < 1) /\
  l_nodeWeightAvgFract w (TempLogic s (mkdist DBottom d) dec a c hts ctl) = 1 / INR (length (t_Ts (w_tank w))) /\
  l_nodeWeightAvgFract w (TempLogic s (mkdist DTop d) dec a c hts ctl) = 1.
Proof.
  intros w s d dc a c hts ctl. split; [|split; [cbn [l_nodeWeightAvgFract d_type]; rewrite nofN_R; reflexivity|reflexivity]].
  intros HG. split; [|apply meanFraction_bounds; auto]. cbn [l_nodeWeightAvgFract d_type d_w]. rewrite wfold_eq. destruct HG as [N _ _ _]. destruct d as [|q d]; [congruence|].
  rewrite nofN_R. unfold meanFraction, dec, LOGIC_SIZE. num_simpl. rewrite !Rplus_0_l. f_equal. cbn. field.
Qed.
Lemma C72_node_range_fact : forall (w : hpwh R) s k m dc a c hts ctl, (1 < k)%nat -> (k <= m)%nat -> (m < 12)%nat ->
  l_nodeWeightAvgFract w (TempLogic s (mkdist DWeighted [((INR k - 1) / 12, 0); (INR m / 12, 1); (1, 0)]) dc a c hts ctl) = (INR k + INR m) / 2 / 12.
Proof.
  intros w s k m dc a c hts ctl H1 H2 H3. apply lt_INR in H1, H3. apply le_INR in H2. cbn in H1. replace (INR 12) with 12 in H3 by (cbn; lra).
  destruct (C72_logic_fraction_fact w s [((INR k - 1) / 12, 0); (INR m / 12, 1); (1, 0)] dc a c hts ctl) as (HW & _). rewrite (fun g => proj1 (HW g)).
  - unfold meanFraction, topHeight. cbn [moment mass last fst]. field. lra.
  - split; [discriminate| | |].
    + cbn [ascending]. repeat split; lra.
    + repeat constructor; cbn; lra.
    + right. left. cbn. lra.
Qed.
(** a temperature logic with a usable distribution *)
Definition soundTempLogic (l : logic R) : Prop :=
  match l with TempLogic _ d _ _ _ _ _ => match d_type d with DWeighted => goodDist (d_w d) | _ => True end | SoCLogic _ _ _ _ _ _ _ _ => False end.
(** one that does not concentrate its weight in the uppermost half twelfth of the tank *)
Definition notTopHeavy (l : logic R) : Prop :=
  match l with TempLogic _ d _ _ _ _ _ => match d_type d with DWeighted => meanFraction (d_w d) <= 23 / 24 | _ => True end | SoCLogic _ _ _ _ _ _ _ _ => False end.
Lemma logicFract_bounds (w : hpwh R) l : soundTempLogic l -> t_Ts (w_tank w) <> [] -> INR (length (t_Ts (w_tank w))) <= 10000 ->
  1 / 10000 <= l_nodeWeightAvgFract w l <= 1 + 1 / 24 /\ (notTopHeavy l -> l_nodeWeightAvgFract w l <= 1).
Proof.
  intros HS HN HL. assert (HL0 : 1 <= INR (length (t_Ts (w_tank w)))). { destruct (t_Ts (w_tank w)); [congruence|]. cbn [length]. rewrite S_INR. pose proof (pos_INR (length l0)). lra. }
  destruct l as [s d dc a c hts ctl|]; [|destruct HS]. destruct d as [ty pts]. cbn [soundTempLogic notTopHeavy d_type d_w] in *.
  destruct (C72_logic_fraction_fact w s pts dc a c hts ctl) as (HW & HB & HT). destruct ty.
  - destruct (HW HS) as (E & HM). rewrite E. split; [lra|intros; lra].
  - rewrite HT. split; [lra|intros; lra].
  - rewrite HB. assert (1 / 10000 <= 1 / INR (length (t_Ts (w_tank w)))).
    { unfold Rdiv. apply Rmult_le_compat_l; [lra|]. apply Rinv_le_contravar; lra. }
    assert (1 / INR (length (t_Ts (w_tank w))) <= 1). { apply (Rmult_le_reg_r (INR (length (t_Ts (w_tank w))))); [lra|]. unfold Rdiv. rewrite Rmult_assoc, Rinv_l by lra. lra. }
    split; [lra|intros; lra].
Qed.
Lemma minFold_spec {A} (f : A -> R) : forall l a, let r := fold_left (fun a x => if Rltb (f x) a then f x else a) l a in
  r <= a /\ (forall x, In x l -> r <= f x) /\ (r = a \/ exists x, In x l /\ r = f x).
Proof.
  induction l as [|x l IH]; intros a; cbn [fold_left]; [cbv zeta; split; [lra|split; [intros x []|auto]]|].
  cbv zeta in *. destruct (IH (if Rltb (f x) a then f x else a)) as (A1 & A2 & A3). set (r := fold_left _ l _) in *. clearbody r.
  destruct (Rltb (f x) a) eqn:E; [apply Rltb_true in E|apply Rltb_false in E].
  - split; [lra|]. split; [intros y [<-|HY]; auto; lra|]. destruct A3 as [A3|(y & HY & A3)]; right; [exists x|exists y]; cbn; auto.
  - split; [lra|]. split; [intros y [<-|HY]; auto; lra|]. destruct A3 as [A3|(y & HY & A3)]; [auto|right; exists y; cbn; auto].
Qed.
Definition usable (w : hpwh R) (l : logic R) : R :=
  if (String.eqb (l_desc l) "large draw" || String.eqb (l_desc l) "larger draw")%bool then 1 else 1 - l_nodeWeightAvgFract w l.
Lemma C72_rejected_fact : forall w : hpwh R, (hasCompressor w = false \/ w_usesSoC w = true) -> exists e, getSizingFractions w = Err e.
Proof.
  intros w HH. unfold getSizingFractions. destruct (hasCompressor w); cbn [negb]; [|unfold noCompressor; eauto]. destruct HH as [HH| ->]; [discriminate|]. eauto.
Qed.
Lemma C72_ranges_fact : forall (w : hpwh R) a u, t_Ts (w_tank w) <> [] -> INR (length (t_Ts (w_tank w))) <= 10000 -> getSizingFractions w = Ok (a, u) ->
  exists h, compressor w = Ok h /\
  (Forall soundTempLogic (h_turnOn h) -> Forall soundTempLogic (h_shutOff h) ->
    0 < a <= 1 /\ (forall l, In l (h_turnOn h) -> a <= l_nodeWeightAvgFract w l) /\ (a = 1 \/ exists l, In l (h_turnOn h) /\ a = l_nodeWeightAvgFract w l) /\
    - (1 / 24) <= u <= 1 /\ (Forall notTopHeavy (h_shutOff h) -> 0 <= u) /\ 1 / 10000 <= Rabs (a - (1 - u))).
Proof.
  intros w a u HN HL E. unfold getSizingFractions in E. destruct (negb (hasCompressor w)); [discriminate|]. destruct (w_usesSoC w); [discriminate|].
  destruct (compressor w) as [h| | |]; try discriminate. cbn [obind] in E. exists h. split; auto. intros H1 H2.
  destruct (minFold_spec (l_nodeWeightAvgFract w) (h_turnOn h) 1) as (A1 & A2 & A3). cbv zeta in A1, A2, A3.
  destruct (minFold_spec (usable w) (h_shutOff h) 1) as (B1 & B2 & B3). cbv zeta in B1, B2, B3.
  unfold aquaFract in E. change (fold_left (fun a l => if Rltb (l_nodeWeightAvgFract w l) a then l_nodeWeightAvgFract w l else a) (h_turnOn h) 1) with (aquaFract w h) in A1, A2, A3.
  change (fold_left (fun a l => if Rltb (usable w l) a then usable w l else a) (h_shutOff h) 1) with (useFract w h) in B1, B2, B3.
  fold (aquaFract w h) in E. set (aq := aquaFract w h) in *. set (us := useFract w h) in *. clearbody aq us.
  assert (Ha : a = aq) by (inversion E; auto). assert (Hu : u = if nltb (nabs (nsub aq (nsub (nofZ 1) us))) TOL_MINVALUE then nadd (nsub (nofZ 1) aq) TOL_MINVALUE else us) by (inversion E; auto). clear E.
  rewrite Forall_forall in H1, H2.
  assert (C1 : 1 / 10000 <= aq). { destruct A3 as [->|(l & HI & ->)]; [lra|]. apply logicFract_bounds; auto. }
  assert (C2 : - (1 / 24) <= us). { destruct B3 as [->|(l & HI & ->)]; [lra|]. destruct (logicFract_bounds w l) as (D1 & _); auto. unfold usable. destruct (_ || _)%bool; lra. }
  assert (C3 : Forall notTopHeavy (h_shutOff h) -> 0 <= us). { intros HT. rewrite Forall_forall in HT. destruct B3 as [->|(l & HI & ->)]; [lra|]. destruct (logicFract_bounds w l) as (_ & D1); auto. specialize (D1 (HT l HI)). unfold usable. destruct (_ || _)%bool; lra. }
  rewrite nabs_R, tol_val in Hu. num_simpl. destruct (Rltb (Rabs (aq - (1 - us))) (1 / 10000)) eqn:ET; [apply Rltb_true in ET|apply Rltb_false in ET]; subst a u.
  - split; [lra|]. split; [auto|]. split; [auto|]. split; [lra|]. split; [intros; lra|]. replace (aq - (1 - (1 - aq + 1 / 10000))) with (1 / 10000) by lra. rewrite Rabs_right; lra.
  - split; [lra|]. split; [auto|]. split; [auto|]. split; [lra|]. split; auto.
Qed.
(** a compressor with a shut-off logic on the uppermost fiftieth of the tank *)
Definition exTopOff : hpwh R := set_w_hs [exHS TCompressor false None exLower [exOn exLower 5] [exOn [(98 / 100, 0); (1, 1)] 5] 0] (set_w_compIx 0 (exUnit [20; 20; 20; 20])).
Lemma C72_usable_refuted_fact : exists (w : hpwh R) h a u, compressor w = Ok h /\ Forall soundTempLogic (h_turnOn h) /\ Forall soundTempLogic (h_shutOff h) /\
  getSizingFractions w = Ok (a, u) /\ u < 0.
Proof.
  assert (G1 : goodDist (exLower (T:=R))) by (apply exLower_good).
  assert (G2 : goodDist [(98 / 100, 0); (1, 1)]).
  { split; [discriminate| | |]; [cbn; repeat split; lra|repeat constructor; cbn; lra|right; left; cbn; lra]. }
  exists exTopOff, (exHS TCompressor false None exLower [exOn exLower 5] [exOn [(98 / 100, 0); (1, 1)] 5] 0).
  destruct (C72_logic_fraction_fact exTopOff "on" exLower 5 false CLess false true) as (F1 & _). destruct (F1 G1) as (F2 & F3).
  destruct (C72_logic_fraction_fact exTopOff "on" [(98 / 100, 0); (1, 1)] 5 false CLess false true) as (F4 & _). destruct (F4 G2) as (F5 & _).
  assert (M1 : meanFraction (exLower (T:=R)) = 1 / 4). { unfold meanFraction, topHeight, exLower, dec. num_simpl. cbn [moment mass last fst]. field. }
  assert (M2 : meanFraction [(98 / 100, 0); (1, 1)] = 99 / 100). { unfold meanFraction, topHeight. cbn [moment mass last fst]. field. }
  rewrite M1 in F2. rewrite M2 in F5.
  assert (EG : exists a u, getSizingFractions exTopOff = Ok (a, u)) by (eexists _, _; reflexivity).
  destruct EG as (a & u & EG). exists a, u. split; [reflexivity|]. split; [constructor; [exact G1|constructor]|]. split; [constructor; [exact G2|constructor]|]. split; [exact EG|].
  assert (E2 : getSizingFractions exTopOff = Ok (let aq := aquaFract exTopOff (exHS TCompressor false None exLower [exOn exLower 5] [exOn [(98 / 100, 0); (1, 1)] 5] 0) in
    let us := useFract exTopOff (exHS TCompressor false None exLower [exOn exLower 5] [exOn [(98 / 100, 0); (1, 1)] 5] 0) in
    (aq, if nltb (nabs (nsub aq (nsub (nofZ 1) us))) TOL_MINVALUE then nadd (nsub (nofZ 1) aq) TOL_MINVALUE else us))) by reflexivity.
  rewrite EG in E2. unfold aquaFract, useFract in E2. cbn [h_turnOn h_shutOff exHS fold_left] in E2.
  change (exOn exLower 5) with (TempLogic "on" (mkdist DWeighted (exLower (T:=R))) 5 false CLess false true) in E2.
  change (exOn [(98 / 100, 0); (1, 1)] 5) with (TempLogic "on" (mkdist DWeighted [(98 / 100, 0); (1, 1)]) 5 false CLess false true) in E2.
  rewrite F2, F5 in E2. cbn [l_desc String.eqb orb] in E2. cbn in E2. rewrite ?nabs_R, ?tol_val in E2. num_simpl.
  revert E2. replace (Rltb (1 / 4 + 1 / 24) 1) with true by (symmetry; apply Rltb_true; lra). replace (Rltb (1 - (99 / 100 + 1 / 24)) 1) with true by (symmetry; apply Rltb_true; lra).
  replace (Rltb (Rabs _) _) with false by (symmetry; apply Rltb_false; rewrite Rabs_left; lra).
  intros E2; inversion E2; subst; lra.
Qed.
Lemma C72_example_fact : exists a u, getSizingFractions (T:=float) (exUnit (map fofZ [20; 20; 20; 20]%Z)) = Ok (a, u) /\ PrimFloat.ltb (fofZ 0) u = true.
Proof. eexists _, _. split; [vm_compute; reflexivity|]. vm_compute. reflexivity. Qed.
