(** Proofs of the theorems stated in PropsRating.v: Properties of the standard test procedures *)

From Coq Require Import ZArith String List Bool Reals Lra Lia Floats Sorting.Sorted.
From Verif Require Import Num FNum Base Units Utils Types TankM Logic HeatSrc Step Setters Rating Spec SpecState SpecDist SpecStep.
From Verif Require Import RList FrameProofs SimFrame MixProofs DistProofs TankFacts ControlProofs StepEnergy EnergyFacts SettersFacts SeqProofs Example.
Import ListNotations.
Local Open Scope R_scope.
(** ** C64 *)
(** litres per gallon, and the volume and rate of a draw of the pattern in litres (per minute); a
    minute takes at most the tank volume [V] *)
Definition litre (gal : R) : R := gal * (378541 / 100000).
Definition rate (V : R) (d : draw (T:=R)) : R := Rmin (litre (d_flow d)) V.
(** [serves V t ready ds vs rest]: from minute [t] on the minutes' draws are [vs] and they carry out the
    draws [ds] in order.  A draw begins in the first minute that is not before its start time, once the
    previous draw is over and followed by a minute without drawing ([ready] tells that this minute has
    passed); it takes its rate every minute but the last and its volume in total.  [rest] are the draws
    that are not completed when the minutes run out. *)
Inductive serves (V : R) : nat -> bool -> list (draw (T:=R)) -> list R -> list (draw (T:=R)) -> Prop :=
| sv_end t g ds : serves V t g ds [] ds
| sv_pause t ds vs rest : serves V (S t) true ds vs rest -> serves V t false ds (0 :: vs) rest
| sv_over t vs rest : serves V (S t) true [] vs rest -> serves V t true [] (0 :: vs) rest
| sv_wait t d ds vs rest : (t < d_start d)%nat -> serves V (S t) true (d :: ds) vs rest -> serves V t true (d :: ds) (0 :: vs) rest
| sv_draw t d ds n r vs rest : (d_start d <= t)%nat -> 0 < r <= rate V d -> INR n * rate V d + r = litre (d_vol d) ->
    serves V (t + n + 1) false ds vs rest -> serves V t true (d :: ds) (repeat (rate V d) n ++ r :: vs) rest
| sv_cut t d ds n : (d_start d <= t)%nat -> INR n * rate V d < litre (d_vol d) ->
    serves V t true (d :: ds) (repeat (rate V d) n) (d :: ds).
(** the daily volumes the test standard prescribes *)
Definition dailyGallons (d : designation) : R :=
  match d with VerySmall => 10 | Low => 38 | Medium => 55 | High => 84 end.

(** the draws of [n] minutes from minute [t] *)
Fixpoint plan (V : R) (t n : nat) (s : sched (T:=R)) : list R :=
  match n with
  | O => []
  | S n' => let s' := fst (takeDraw (startDraw V t s)) in sc_step s' :: plan V (S t) n' s'
  end.
Lemma litre_eq x : GAL_TO_L x = litre x.
Proof. unfold GAL_TO_L, L_per_gal, litre, dec. num_simpl. reflexivity. Qed.
Lemma startDraw_busy V t (s : sched (T:=R)) : sc_ready s = false -> startDraw V t s = s.
Proof. unfold startDraw. intros ->. reflexivity. Qed.
Lemma startDraw_due V t (s : sched (T:=R)) d ds : sc_ready s = true -> sc_next s = d :: ds -> (d_start d <= t)%nat ->
  startDraw V t s = mksched false true (rate V d) (litre (d_vol d)) ds.
Proof.
  intros E1 E2 E3. unfold startDraw. rewrite E1, E2. apply Nat.leb_le in E3. rewrite E3, !litre_eq.
  f_equal. unfold rate. num_simpl. unfold Rmin. rewrite Rmult_1_r. destruct (Rle_dec (litre (d_flow d)) V) as [HL|HL].
  - destruct (Rltb V (litre (d_flow d))) eqn:B; auto. apply Rltb_true in B. lra.
  - destruct (Rltb V (litre (d_flow d))) eqn:B; auto. apply Rltb_false in B. lra.
Qed.
Definition fineDraw (d : draw (T:=R)) : Prop := 0 < d_flow d /\ 0 < d_vol d.
Lemma rate_pos V d : 0 < V -> fineDraw d -> 0 < rate V d.
Proof. intros HV [H1 H2]. unfold rate, litre. apply Rmin_glb_lt; [nra|auto]. Qed.
Lemma plan_serves V : 0 < V -> forall n,
  (forall t rho rem ds, 0 < rho -> 0 < rem -> Forall fineDraw ds -> let vs := plan V t n (mksched false true rho rem ds) in
     (vs = repeat rho n /\ INR n * rho < rem) \/
     exists j r vs' rest, vs = repeat rho j ++ r :: vs' /\ 0 < r <= rho /\ INR j * rho + r = rem /\ serves V (t + j + 1) false ds vs' rest) /\
  (forall t g st rm ds, Forall fineDraw ds -> exists rest, serves V t g ds (plan V t n (mksched g false st rm ds)) rest).
Proof.
  intros HV. induction n as [|n [IH1 IH2]].
  - split.
    + intros t rho rem ds H1 H2 _. cbn [plan]. left. cbn. split; auto. lra.
    + intros t g st rm ds HF. cbn [plan]. exists ds. constructor.
  - assert (A1 : forall t rho rem ds, 0 < rho -> 0 < rem -> Forall fineDraw ds -> let vs := plan V t (S n) (mksched false true rho rem ds) in
     (vs = repeat rho (S n) /\ INR (S n) * rho < rem) \/
     exists j r vs' rest, vs = repeat rho j ++ r :: vs' /\ 0 < r <= rho /\ INR j * rho + r = rem /\ serves V (t + j + 1) false ds vs' rest).
    { intros t rho rem ds H1 H2 HF vs. subst vs. cbn [plan]. rewrite startDraw_busy by reflexivity.
      unfold takeDraw. cbn [sc_drawing sc_step sc_rem sc_ready sc_next]. num_simpl. destruct (Rleb rem rho) eqn:B; cbn [fst sc_step].
      - apply Rleb_true in B. right. destruct (IH2 (S t) false rem 0 ds HF) as (rest & HS).
        exists 0%nat, rem, (plan V (S t) n (mksched false false rem 0 ds)), rest. cbn [repeat app INR].
        replace (t + 0 + 1)%nat with (S t) by lia. repeat split; auto; lra.
      - apply Rleb_false in B. destruct (IH1 (S t) rho (rem - rho) ds H1 ltac:(lra) HF) as [[E1 E2]|(j & r & vs' & rest & E1 & E2 & E3 & E4)].
        + left. rewrite E1. cbn [repeat]. split; auto. rewrite S_INR. lra.
        + right. exists (S j), r, vs', rest. rewrite E1. cbn [repeat app]. rewrite S_INR. replace (t + S j + 1)%nat with (S t + j + 1)%nat by lia. repeat split; auto; lra. }
    split; [exact A1|]. intros t g st rm ds HF.
    assert (AW : forall g', startDraw V t (mksched g' false st rm ds) = mksched g' false st rm ds ->
      plan V t (S n) (mksched g' false st rm ds) = 0 :: plan V (S t) n (mksched true false 0 0 ds)).
    { intros g' E. cbn [plan]. rewrite E. reflexivity. }
    destruct g.
    + destruct ds as [|d ds].
      * destruct (IH2 (S t) true 0 0 [] HF) as (rest & HS). exists rest. rewrite AW by reflexivity. constructor. exact HS.
      * destruct (Nat.leb (d_start d) t) eqn:B.
        -- apply Nat.leb_le in B. inversion HF as [|? ? Hd HF']; subst.
           destruct (A1 t (rate V d) (litre (d_vol d)) ds (rate_pos V d HV Hd) ltac:(destruct Hd; unfold litre; nra) HF') as [[E1 E2]|(j & r & vs' & rest & E1 & E2 & E3 & E4)].
           ++ exists (d :: ds). replace (plan V t (S n) _) with (repeat (rate V d) (S n)); [constructor; auto|].
              rewrite <- E1. cbn [plan]. rewrite (startDraw_due V t (mksched true false st rm (d :: ds)) d ds), (startDraw_busy V t (mksched false true _ _ ds)); auto.
           ++ exists rest. replace (plan V t (S n) _) with (repeat (rate V d) j ++ r :: vs'); [constructor; auto|].
              rewrite <- E1. cbn [plan]. rewrite (startDraw_due V t (mksched true false st rm (d :: ds)) d ds), (startDraw_busy V t (mksched false true _ _ ds)); auto.
        -- destruct (IH2 (S t) true 0 0 (d :: ds) HF) as (rest & HS). exists rest. rewrite AW.
           ++ apply sv_wait; auto. apply Nat.leb_gt in B. auto.
           ++ unfold startDraw. cbn [sc_ready sc_next]. rewrite B. reflexivity.
    + destruct (IH2 (S t) true 0 0 ds HF) as (rest & HS). exists rest. rewrite AW by reflexivity. constructor. exact HS.
Qed.

Lemma serves_nil V t g vs rest : serves V t g [] vs rest -> rest = [].
Proof. intros HS. remember [] as ds. induction HS; try discriminate; auto. Qed.
Lemma rsum_cons x l : Rsum (x :: l) = x + Rsum l.
Proof. reflexivity. Qed.
Lemma rsum_repeat x n : Rsum (repeat x n) = INR n * x.
Proof. induction n; cbn [repeat]; [cbn; lra|]. rewrite rsum_cons, IHn, S_INR. lra. Qed.
Lemma serves_sum V t g ds vs rest : serves V t g ds vs rest -> rest = [] -> Rsum vs = Rsum (map (fun d => litre (d_vol d)) ds).
Proof.
  induction 1 as [t g ds|t ds vs rest HS IH|t vs rest HS IH|t d ds vs rest HL HS IH|t d ds n r vs rest HL Hr HE HS IH|t d ds n HL Hr]; intros E; subst.
  - reflexivity.
  - rewrite rsum_cons, IH by auto. lra.
  - rewrite rsum_cons, IH by auto. cbn. lra.
  - rewrite rsum_cons, IH by auto. lra.
  - rewrite Rsum_app, rsum_repeat, rsum_cons, IH by auto. cbn [map]. rewrite rsum_cons. lra.
  - discriminate.
Qed.
Lemma serves_range V t g ds vs rest : 0 < V -> Forall fineDraw ds -> serves V t g ds vs rest -> Forall (fun v => 0 <= v <= V) vs.
Proof.
  intros HV HF HS. induction HS as [t g ds|t ds vs rest HS IH|t vs rest HS IH|t d ds vs rest HL HS IH|t d ds n r vs rest HL Hr HE HS IH|t d ds n HL Hr].
  - constructor.
  - constructor; auto. lra.
  - constructor; auto. lra.
  - constructor; auto. lra.
  - inversion HF; subst. pose proof (rate_pos V d HV ltac:(auto)) as HP. assert (rate V d <= V) by apply Rmin_r.
    apply Forall_app. split; [apply Forall_forall; intros x Hx; apply repeat_spec in Hx; subst; lra|]. constructor; [lra|auto].
  - inversion HF; subst. pose proof (rate_pos V d HV ltac:(auto)) as HP. assert (rate V d <= V) by apply Rmin_r.
    apply Forall_forall; intros x Hx; apply repeat_spec in Hx; subst; lra.
Qed.
(** minutes a draw takes at most *)
Definition within_minutes (V : R) (d : draw (T:=R)) (N : nat) : Prop := litre (d_vol d) <= INR N * rate V d /\ (d_start d <= 1020)%nat /\ 0 < rate V d.
Lemma serves_finish V t g ds vs rest : serves V t g ds vs rest -> forall Ns, Forall2 (within_minutes V) ds Ns -> rest <> [] ->
  (t + length vs <= Nat.max t 1020 + list_sum (map S Ns) + (if g then 0 else 1))%nat.
Proof.
  induction 1 as [t g ds|t ds vs rest HS IH|t vs rest HS IH|t d ds vs rest HL HS IH|t d ds n r vs rest HL Hr HE HS IH|t d ds n HL Hr]; intros Ns HN HR; cbn [length].
  - lia.
  - specialize (IH _ HN HR). lia.
  - apply serves_nil in HS. contradiction.
  - specialize (IH _ HN HR). inversion HN as [|? N ? Ns' (_ & HM & _)]; subst. lia.
  - inversion HN as [|? N ? Ns' (H1 & HM & HP) HN']; subst. specialize (IH _ HN' HR). rewrite app_length, repeat_length. cbn [length map list_sum fold_right].
    assert (n < N)%nat. { apply INR_lt. apply (Rmult_lt_reg_r (rate V d)); auto. lra. }
    fold (list_sum (map S Ns')). lia.
  - inversion HN as [|? N ? Ns' (H1 & HM & HP) HN']; subst. rewrite repeat_length. cbn [length map list_sum fold_right].
    assert (n < N)%nat. { apply INR_lt. apply (Rmult_lt_reg_r (rate V d)); auto. lra. }
    fold (list_sum (map S Ns')). lia.
Qed.
(** ** The unit during a test *)
Lemma step_volume fuel x (w w' : hpwh R) : runOneStep fuel x w = (Ok tt, w') -> tframe (w_tank w) (w_tank w').
Proof.
  intros E. apply runOneStep_inv in E. destruct E as (w1 & w2 & w3 & air & HP & HC & HE & ->).
  destruct (stepTimer_hs (i_dr x) (stepSettle (stepDepress (i_amb x) w3))) as (_ & -> & _).
  assert (ES : forall v : hpwh R, w_tank (stepSettle v) = w_tank v) by (intros []; reflexivity). rewrite ES.
  destruct (stepDepress_hs (i_amb x) w3) as (_ & _ & -> & _).
  apply stepExtra_frame in HE. destruct HE as (_ & HE & _).
  destruct (afterControl_hs w2) as (_ & EA & _). rewrite EA in HE.
  pose proof (control_cframe fuel (i_dr x) air w1) as HF. rewrite HC in HF. cbn [snd] in HF. destruct HF as (_ & HF & _).
  eapply tframe_trans; [eapply preControl_tank; eauto|]. eapply tframe_trans; eauto.
Qed.
Lemma tframe_volume (t t' : tank R) : tframe t t' -> t_volume t' = t_volume t.
Proof. intros [_ ->]. reflexivity. Qed.
Lemma testStep_volume fuel c v dr (w w' : hpwh R) : testStep fuel c v dr w = (Ok tt, w') -> t_volume (w_tank w') = t_volume (w_tank w).
Proof.
  unfold testStep, runOneStepInlet. intros E. apply bind_inv in E. destruct E as ([] & w1 & E1 & E). inversion E1; subst w1; clear E1.
  apply step_volume in E. apply tframe_volume in E. rewrite E. destruct w; reflexivity.
Qed.
Lemma omap_seq {B} (f : Z -> outc B) (g : nat -> B) n : forall a, (forall i, (a <= i < a + n)%nat -> f (Z.of_nat i) = Ok (g i)) ->
  omap f (map Z.of_nat (seq a n)) = Ok (map g (seq a n)).
Proof.
  induction n as [|n IH]; intros a HE; cbn [seq map omap]; auto. rewrite HE by lia. cbn [obind]. rewrite IH; [reflexivity|].
  intros; apply HE; lia.
Qed.
Lemma map_nth_seq {A B} (f : A -> B) (l : list A) (d : A) : map (fun i => f (nth i l d)) (seq 0 (length l)) = map f l.
Proof.
  induction l as [|x l IH]; auto. cbn [length seq map nth]. f_equal. rewrite <- seq_shift, map_map. exact IH.
Qed.
Lemma nthSource_nat i (w : hpwh R) d : (i < length (w_hs w))%nat -> nthSource (Z.of_nat i) w = Ok (nth i (w_hs w) d).
Proof.
  intros Hi. unfold nthSource. destruct (nth_error (w_hs w) i) as [h|] eqn:E.
  - rewrite (nth_error_nth _ _ d E). rewrite Nat2Z.id, E. destruct (_ || _)%bool eqn:B; auto. apply orb_true_iff in B. destruct B as [B|B]; [rewrite Z.geb_leb in B; apply Z.leb_le in B|apply Z.ltb_lt in B]; lia.
  - apply nth_error_None in E. lia.
Qed.

(** ** C75 *)
(** one minute of the test: a step with the draw [v], no second inlet and no extra heat *)
Definition minuteOf (fuel : nat) (c : testConf (T:=R)) (v : R) (w w' : hpwh R) : Prop :=
  runOneStepInlet fuel (tc_inlet c) (mkin v (tc_amb c) (tc_ext c) 0 0 (tc_inlet c) None) w = (Ok tt, w').
(** row [r] is what minute [t] with draw [v] left to be read off the unit; the outlet temperature is
    reported as [o] *)
Record rowOf (c : testConf (T:=R)) (t : Z) (v o : R) (w : hpwh R) (r : testData (T:=R)) : Prop := {
  ro_time : td_time r = t;
  ro_draw : td_draw r = v;
  ro_conf : td_amb r = tc_amb c /\ td_inlet r = tc_inlet c;
  ro_dr : td_dr r = 0%Z;
  ro_set : td_setpoint r = w_setpoint w;
  ro_in : td_in r = map h_eIn (w_hs w);
  ro_out : td_out r = map h_eOut (w_hs w);
  ro_tc : forall i, (i < 6)%nat -> exists x, nth_error (td_tc r) i = Some x /\ nthThermocouple (Z.of_nat (S i)) 6 (w_tank w) = Ok x;
  ro_outlet : td_outlet r = o
}.
(** consecutive minutes from [t] on, with their rows and the states [ws] they leave *)
Inductive minutes (fuel : nat) (c : testConf (T:=R)) (outlet : hpwh R -> R) : Z -> hpwh R -> list (testData (T:=R)) -> list (hpwh R) -> hpwh R -> Prop :=
| mi_nil t w : minutes fuel c outlet t w [] [] w
| mi_cons t w v w1 r rows ws w' : minuteOf fuel c v w w1 -> rowOf c t v (outlet w1) w1 r ->
    minutes fuel c outlet (t + 1) w1 rows ws w' -> minutes fuel c outlet t w (r :: rows) (w1 :: ws) w'.
(** heat in [v] litres of water warmed by [dT], kJ; heat delivered and energy used in the minute of a row *)
Definition waterHeat (v dT : R) : R := 418 / 100 * (995 / 1000) * v * dT.
Definition rowDelivered (r : testData (T:=R)) : R := waterHeat (td_draw r) (td_outlet r - td_inlet r).
Definition rowUsed (r : testData (T:=R)) : R := 3600 * Rsum (td_in r).
Definition sumOver (f : testData (T:=R) -> R) (rows : list (testData (T:=R))) : R := Rsum (map f rows).

Lemma record_row t c v o (w : hpwh R) r : record t c v 0 o w = Ok r -> rowOf c t v o w r.
Proof.
  unfold record. cbv zeta. unfold numHS.
  assert (D : {d : hsrc R | True} + {w_hs w = []}) by (destruct (w_hs w) as [|h l]; [right; auto|left; exists h; auto]).
  assert (EI : omap (fun i => getNthEnergyInput i U_KWH w) (map Z.of_nat (seq 0 (length (w_hs w)))) = Ok (map h_eIn (w_hs w))).
  { destruct D as [[d _]|E]; [|rewrite E; reflexivity]. rewrite (omap_seq _ (fun i => h_eIn (nth i (w_hs w) d))); [rewrite map_nth_seq; reflexivity|].
    intros i Hi. unfold getNthEnergyInput. rewrite (nthSource_nat i w d) by lia. reflexivity. }
  assert (EO : omap (fun i => getNthEnergyOutput i U_KWH w) (map Z.of_nat (seq 0 (length (w_hs w)))) = Ok (map h_eOut (w_hs w))).
  { destruct D as [[d _]|E]; [|rewrite E; reflexivity]. rewrite (omap_seq _ (fun i => h_eOut (nth i (w_hs w) d))); [rewrite map_nth_seq; reflexivity|].
    intros i Hi. unfold getNthEnergyOutput. rewrite (nthSource_nat i w d) by lia. reflexivity. }
  rewrite EI, EO. cbn [obind]. set (f := fun i => nthThermocouple i 6 (w_tank w)). 
  destruct (omap f [1; 2; 3; 4; 5; 6]%Z) as [tcs|e|e|] eqn:ET; cbn [obind]; try discriminate. intros E. injection E as <-.
  constructor; auto. cbn [td_tc]. clear EI EO D. cbn [omap] in ET.
  destruct (f 1%Z) as [x1|?|?|] eqn:F1; cbn [obind] in ET; try discriminate.
  destruct (f 2%Z) as [x2|?|?|] eqn:F2; cbn [obind] in ET; try discriminate.
  destruct (f 3%Z) as [x3|?|?|] eqn:F3; cbn [obind] in ET; try discriminate.
  destruct (f 4%Z) as [x4|?|?|] eqn:F4; cbn [obind] in ET; try discriminate.
  destruct (f 5%Z) as [x5|?|?|] eqn:F5; cbn [obind] in ET; try discriminate.
  destruct (f 6%Z) as [x6|?|?|] eqn:F6; cbn [obind] in ET; try discriminate.
  injection ET as <-. unfold f in *. intros i Hi. do 6 (destruct i as [|i]; [eexists; split; [reflexivity|assumption]|]). lia.
Qed.
Lemma usedEnergy_eq (w : hpwh R) : usedEnergy w = Ok (3600 * Rsum (map h_eIn (w_hs w))).
Proof.
  unfold usedEnergy, numHS.
  assert (D : {d : hsrc R | True} + {w_hs w = []}) by (destruct (w_hs w) as [|h l]; [right; auto|left; exists h; auto]).
  assert (EI : omap (fun i => getNthEnergyInput i U_KJ w) (map Z.of_nat (seq 0 (length (w_hs w)))) = Ok (map (fun h => KWH_TO_KJ (h_eIn h)) (w_hs w))).
  { destruct D as [[d _]|E]; [|rewrite E; reflexivity]. rewrite (omap_seq _ (fun i => KWH_TO_KJ (h_eIn (nth i (w_hs w) d)))); [rewrite (map_nth_seq (fun h => KWH_TO_KJ (h_eIn h))); reflexivity|].
    intros i Hi. unfold getNthEnergyInput. rewrite (nthSource_nat i w d) by lia. reflexivity. }
  rewrite EI. cbn [obind]. f_equal. generalize (w_hs w). intros l.
  assert (G : forall acc : R, fold_left nadd (map (fun h => KWH_TO_KJ (h_eIn h)) l) acc = acc + 3600 * Rsum (map h_eIn l)).
  { induction l as [|h l IH]; intros acc; cbn [map fold_left]; [cbn; lra|]. rewrite IH, rsum_cons. unfold KWH_TO_KJ, sec_per_hr, sec_per_min, min_per_hr. num_simpl. lra. }
  rewrite G. num_simpl. lra.
Qed.

Definition outletOf (w : hpwh R) : R := t_outletT (w_tank w).
Lemma minute24_inv fuel c initT t s (w w' : hpwh R) s' : minute24 fuel c initT t s w = (Ok s', w') ->
  exists row, let '(sc, noDraw) := takeDraw (startDraw (t_volume (w_tank w)) t (te_sched s)) in
    minuteOf fuel c (sc_step sc) w w' /\ rowOf c (Z.of_nat t) (sc_step sc) (outletOf w') w' row /\
    t_volume (w_tank w') = t_volume (w_tank w) /\
    s' = tally c (t_volume (w_tank w)) initT (mkobs t (sc_step sc) (outletOf w') (averageT (w_tank w')) (w_heating w') (sc_drawing sc) (3600 * Rsum (map h_eIn (w_hs w')))) noDraw sc row s.
Proof.
  unfold minute24. intros E. apply bind_inv in E. destruct E as (w0 & w1 & E0 & E). apply get_inv in E0. destruct E0 as [-> ->].
  destruct (takeDraw _) as [sc noDraw] eqn:ET.
  apply bind_inv in E. destruct E as ([] & w2 & E1 & E).
  apply bind_inv in E. destruct E as (w3 & w4 & E0 & E). apply get_inv in E0. destruct E0 as [-> ->].
  apply bind_inv in E. destruct E as (row & w5 & E2 & E). apply lift_inv in E2. destruct E2 as [-> E2].
  apply bind_inv in E. destruct E as (used & w6 & E3 & E). apply lift_inv in E3. destruct E3 as [-> E3].
  rewrite usedEnergy_eq in E3. injection E3 as <-. apply ret_inv in E. destruct E as [-> <-].
  exists row. rewrite (testStep_volume _ _ _ _ _ _ E1). split; [exact E1|]. split; [apply record_row; exact E2|]. auto.
Qed.
(** sums that the loop keeps, as sums over rows *)
Record tallied (s s' : test (T:=R)) (rows : list (testData (T:=R))) : Prop := {
  tl_removed : to_removed (te_tot s') = to_removed (te_tot s) + sumOver td_draw rows;
  tl_delivered : to_delivered (te_tot s') = to_delivered (te_tot s) + sumOver rowDelivered rows;
  tl_used : to_used (te_tot s') = to_used (te_tot s) + sumOver rowUsed rows;
  tl_el : to_el (te_tot s') = to_el (te_tot s) + sumOver rowUsed rows;
  tl_outVT : to_outVT (te_tot s') = to_outVT (te_tot s) + sumOver (fun r => td_draw r * td_outlet r) rows;
  tl_inVT : to_inVT (te_tot s') = to_inVT (te_tot s) + sumOver (fun r => td_draw r * td_inlet r) rows
}.
(** the first recovery period: over at minute [e], or not over *)
Definition recSums (s s' : test (T:=R)) (rows : list (testData (T:=R))) : Prop :=
  rc_vol (te_rec s') = rc_vol (te_rec s) + sumOver td_draw rows /\ rc_used (te_rec s') = rc_used (te_rec s) + sumOver rowUsed rows /\
  rc_outVT (te_rec s') - rc_inVT (te_rec s') = rc_outVT (te_rec s) - rc_inVT (te_rec s) + sumOver (fun r => td_draw r * (td_outlet r - td_inlet r)) rows.
Definition tankT (w : hpwh R) : R := averageT (w_tank w).
Definition recovered (V initT : R) (t : nat) (s s' : test (T:=R)) (rows : list (testData (T:=R))) (ws : list (hpwh R)) : Prop :=
  rc_on (te_rec s) = true ->
  (rc_on (te_rec s') = true /\ recSums s s' rows /\ rc_end (te_rec s') = rc_end (te_rec s) /\ rc_stored (te_rec s') = rc_stored (te_rec s) /\ rc_delivered (te_rec s') = rc_delivered (te_rec s)) \/
  (rc_on (te_rec s') = false /\ exists k v, nth_error ws k = Some v /\ w_heating v = false /\ (te_heated s || existsb (fun v => w_heating v) (firstn k ws) = true)%bool /\
    rc_end (te_rec s') = (t + k)%nat /\ recSums s s' (firstn (S k) rows) /\
    rc_stored (te_rec s') = waterHeat V (last (map tankT (firstn k ws)) (te_prevT s) - initT) /\
    rc_delivered (te_rec s') = 418 / 100 * (995 / 1000) * (rc_outVT (te_rec s') - rc_inVT (te_rec s'))).
Lemma last_cons {A} (l : list A) x y : last (x :: l) y = last l x.
Proof. revert x y. induction l as [|z l IH]; intros; auto. cbn [last] in *. destruct l as [|u l]; auto. Qed.
Lemma sumOver_cons f r rows : sumOver f (r :: rows) = f r + sumOver f rows.
Proof. reflexivity. Qed.
Lemma keepRec fuel c initT n : forall t s (w w' : hpwh R) s', foldM (seq t n) (minute24 fuel c initT) s w = (Ok s', w') -> rc_on (te_rec s) = false -> te_rec s' = te_rec s.
Proof.
  induction n as [|n IH]; intros t s w w' s' E HO; cbn [seq foldM] in E; [apply ret_inv in E; destruct E as [_ ->]; auto|].
  apply bind_inv in E. destruct E as (s1 & w1 & E1 & E). apply minute24_inv in E1. destruct E1 as (row & E1).
  destruct (takeDraw _) as [sc nd]. destruct E1 as (_ & _ & _ & E1). unfold tally in E1. cbv zeta in E1.
  assert (E2 : te_rec s1 = te_rec s) by (rewrite E1; cbn [te_rec]; rewrite HO; reflexivity).
  rewrite <- E2 in HO. rewrite (IH _ _ _ _ _ E HO). exact E2.
Qed.
Lemma loop24 fuel c initT n : forall t s (w w' : hpwh R) s', foldM (seq t n) (minute24 fuel c initT) s w = (Ok s', w') ->
  exists rows ws, te_rows s' = te_rows s ++ rows /\ length rows = n /\ minutes fuel c outletOf (Z.of_nat t) w rows ws w' /\
    map td_draw rows = plan (t_volume (w_tank w)) t n (te_sched s) /\ t_volume (w_tank w') = t_volume (w_tank w) /\
    tallied s s' rows /\ te_heated s' = (te_heated s || existsb (fun v => w_heating v) ws)%bool /\
    te_prevT s' = last (map tankT ws) (te_prevT s) /\ recovered (t_volume (w_tank w)) initT t s s' rows ws.
Proof.
  induction n as [|n IH]; intros t s w w' s' E; cbn [seq foldM] in E.
  - apply ret_inv in E. destruct E as [-> <-]. exists [], []. rewrite app_nil_r. cbn [existsb map last plan]. rewrite orb_false_r.
    (split; [reflexivity|split; [reflexivity|split; [apply mi_nil|split; [reflexivity|split; [reflexivity|split; [|split; [reflexivity|split; [reflexivity|]]]]]]]]).
    + constructor; unfold sumOver; cbn; lra.
    + intros HO. left. unfold recSums, sumOver. cbn. repeat split; auto; lra.
  - apply bind_inv in E. destruct E as (s1 & w1 & E1 & E). apply minute24_inv in E1. destruct E1 as (row & E1).
    cbn [plan]. destruct (takeDraw (startDraw (t_volume (w_tank w)) t (te_sched s))) as [sc nd] eqn:ET.
    destruct E1 as (M1 & M2 & M3 & M4). pose proof E as EL. apply IH in E. destruct E as (rows & ws & R1 & R2 & R3 & R4 & R5 & R6 & R7 & R8 & R9).
    rewrite M3 in R4, R5. pose proof M4 as M4'. unfold tally in M4'. cbv zeta in M4'.
    exists (row :: rows), (w1 :: ws). split; [|split; [|split; [|split; [|split; [|split; [|split; [|split]]]]]]].
    + rewrite R1, M4'. cbn [te_rows]. rewrite <- app_assoc. reflexivity.
    + cbn. lia.
    + econstructor; eauto. replace (Z.of_nat t + 1)%Z with (Z.of_nat (S t)) by lia. exact R3.
    + cbn [map fst]. rewrite (ro_draw _ _ _ _ _ _ M2), R4, M4'. reflexivity.
    + auto.
    + destruct R6 as [A1 A2 A3 A4 A5 A6]. destruct M2 as [B1 B2 [B3 B3'] B4 B5 B6 B7 B8 B9].
      constructor; rewrite sumOver_cons; [rewrite A1|rewrite A2|rewrite A3|rewrite A4|rewrite A5|rewrite A6]; rewrite M4';
        cbn [te_tot addTotals to_removed to_delivered to_used to_el to_outVT to_inVT o_draw o_out o_used];
        unfold rowDelivered, rowUsed, waterHeat, CPWATER, DENSITYWATER, dec; rewrite ?B2, ?B3', ?B6, ?B9; num_simpl; lra.
    + rewrite R7, M4'. cbn [te_heated o_heating existsb]. rewrite orb_assoc. reflexivity.
    + rewrite R8, M4'. cbn [te_prevT o_tank map]. rewrite last_cons. reflexivity.
    + intros HO. rewrite M3 in R9. destruct M2 as [B1 B2 [B3 B3'] B4 B5 B6 B7 B8 B9].
      assert (S1 : rc_vol (te_rec s1) = rc_vol (te_rec s) + td_draw row /\ rc_used (te_rec s1) = rc_used (te_rec s) + rowUsed row /\
        rc_outVT (te_rec s1) - rc_inVT (te_rec s1) = rc_outVT (te_rec s) - rc_inVT (te_rec s) + td_draw row * (td_outlet row - td_inlet row)).
      { rewrite M4'. cbn [te_rec]. rewrite HO. unfold addRecovery, rowUsed. rewrite B2, B6, B9, B3'. cbn [o_drawing o_draw o_used o_out o_heating].
        destruct (_ && _)%bool; cbn [rc_vol rc_used rc_outVT rc_inVT]; num_simpl; repeat split; lra. }
      destruct S1 as (S1 & S2 & S3).
      destruct (rc_on (te_rec s1)) eqn:EO.
      * destruct (R9 EO) as [(Q1 & (Q2 & Q3 & Q4) & Q5 & Q6 & Q7)|(Q1 & k & v & Q2 & Q3 & Q4 & Q5 & (Q6 & Q6' & Q6'') & Q7 & Q8)].
        -- left. split; [exact Q1|]. split; [unfold recSums; rewrite !sumOver_cons; repeat split; lra|]. rewrite Q5, Q6, Q7, M4'. cbn [te_rec]. rewrite HO.
           rewrite M4' in EO. cbn [te_rec] in EO. rewrite HO in EO. unfold addRecovery in EO |- *. cbn [o_drawing o_heating o_time] in *. destruct (_ && _)%bool; [discriminate EO|auto].
        -- right. split; [exact Q1|]. exists (S k), v. cbn [nth_error]. split; [exact Q2|]. split; [exact Q3|]. split; [|split; [|split; [|split]]].
           ++ cbn [firstn existsb]. rewrite M4' in Q4. cbn [te_heated o_heating] in Q4. rewrite orb_assoc. exact Q4.
           ++ rewrite Q5. lia.
           ++ unfold recSums. cbn [firstn] in *. rewrite !sumOver_cons. repeat split; lra.
           ++ rewrite Q7. rewrite M4'. cbn [te_prevT o_tank firstn map]. rewrite last_cons. reflexivity.
           ++ exact Q8.
      * right. (* over in this minute; the rest leaves it alone *)
        assert (KEEP : te_rec s' = te_rec s1) by (exact (keepRec _ _ _ _ _ _ _ _ _ EL EO)).
        rewrite KEEP. split; [exact EO|]. exists 0%nat, w1. cbn [nth_error firstn existsb map last]. split; [reflexivity|].
        rewrite M4' in EO. cbn [te_rec] in EO. rewrite HO in EO. unfold addRecovery in EO. cbn [o_drawing o_heating] in EO.
        destruct (negb (sc_drawing sc) && (te_heated s || w_heating w1) && negb (w_heating w1))%bool eqn:EB; [|discriminate EO]. apply andb_prop in EB. destruct EB as [EB EB3]. apply andb_prop in EB. destruct EB as [EB1 EB2].
        apply negb_true_iff in EB3. rewrite EB3 in EB2. split; [exact EB3|]. split; [exact EB2|]. split; [|split; [|split]].
        -- rewrite M4'. cbn [te_rec]. rewrite HO. unfold addRecovery. cbn [o_drawing o_heating o_time]. rewrite EB1, EB3, EB2. cbn. lia.
        -- unfold recSums. rewrite !sumOver_cons, KEEP. unfold sumOver. cbn [map Rsum fold_right]. repeat split; lra.
        -- rewrite M4'. cbn [te_rec]. rewrite HO. unfold addRecovery. cbn [o_drawing o_heating o_time]. rewrite EB1, EB3, EB2. cbn [andb negb rc_stored]. unfold waterHeat, CPWATER, DENSITYWATER, dec. num_simpl. lra.
        -- rewrite M4'. cbn [te_rec]. rewrite HO. unfold addRecovery. cbn [o_drawing o_heating o_time]. rewrite EB1, EB3, EB2. cbn [andb negb rc_delivered rc_outVT rc_inVT]. unfold CPWATER, DENSITYWATER, dec. num_simpl. lra.
Qed.
Lemma idle24 k fuel c : forall n on rows (w w' : hpwh R) m rows', idleLoop k fuel c n on rows w = (Ok (m, rows'), w') ->
  exists more ws, rows' = rows ++ more /\ length more = (m - n)%nat /\ (n <= m)%nat /\ minutes fuel c (fun _ => 0) (Z.of_nat n) w more ws w' /\
    Forall (fun r => td_draw r = 0) more /\ (60 <= m)%nat /\ t_volume (w_tank w') = t_volume (w_tank w) /\
    (existsb (fun h => h_on h) (w_hs w) = on \/ n = 0%nat -> forall h, In h (w_hs w') -> h_on h = false).
Proof.
  induction k as [|k IH]; intros n on rows w w' m rows' E; cbn [idleLoop] in E; destruct (Nat.ltb n 60 || on)%bool eqn:B; try discriminate.
  1,3: apply ret_inv in E; destruct E as [-> E]; injection E as <- <-; exists [], []; rewrite app_nil_r, Nat.sub_diag;
    apply orb_false_iff in B; destruct B as [B1 B2]; apply Nat.ltb_ge in B1;
    (split; [reflexivity|split; [reflexivity|split; [lia|split; [apply mi_nil|split; [apply Forall_nil|split; [exact B1|split; [reflexivity|]]]]]]]);
    intros [HO|HO] h Hh; [|lia]; rewrite B2 in HO; destruct (h_on h) eqn:EH; auto;
    assert (existsb (fun h => h_on h) (w_hs w) = true) by (apply existsb_exists; eauto); congruence.
  apply bind_inv in E. destruct E as ([] & w1 & E1 & E).
  apply bind_inv in E. destruct E as (w2 & w3 & E0 & E). apply get_inv in E0. destruct E0 as [-> ->].
  apply bind_inv in E. destruct E as (r & w4 & E2 & E). apply lift_inv in E2. destruct E2 as [-> E2]. apply record_row in E2.
  apply IH in E. destruct E as (more & ws & R1 & R2 & R3 & R4 & R5 & R6 & R7 & R8).
  exists (r :: more), (w1 :: ws). rewrite (testStep_volume _ _ _ _ _ _ E1) in R7. split; [|split; [|split; [|split; [|split; [|split; [|split]]]]]]; auto.
  - rewrite R1, <- app_assoc. reflexivity.
  - cbn. lia.
  - lia.
  - apply mi_cons with (v := 0); [exact E1|exact E2|]. replace (Z.of_nat n + 1)%Z with (Z.of_nat (S n)) by lia. exact R4.
  - constructor; auto. exact (ro_draw _ _ _ _ _ _ E2).
Qed.
(** ** The whole 24-hour test *)
Lemma setTestSetpoint_tank (w w' : hpwh R) : setTestSetpoint w = (Ok tt, w') -> w_tank w' = w_tank w /\ w_hs w' = w_hs w /\ w_heating w' = w_heating w.
Proof.
  assert (HS : forall v (a b : hpwh R), setSetpoint v U_C a = (Ok tt, b) -> w_tank b = w_tank a /\ w_hs b = w_hs a /\ w_heating b = w_heating a).
  { intros v a b E. unfold setSetpoint in E. apply bind_inv in E. destruct E as (x & y & E1 & E). apply lift_inv in E1. destruct E1 as [-> E1].
    destruct (setSetpointC_cases x a) as [(mx & _ & E2)|(_ & E2 & E3)]; rewrite E in *.
    - injection E2 as ->. destruct a; auto.
    - cbn [snd] in *. subst. auto. }
  unfold setTestSetpoint. intros E. apply bind_inv in E. destruct E as (w0 & w1 & E0 & E). apply get_inv in E0. destruct E0 as [-> ->].
  apply bind_inv in E. destruct E as ([ok mx] & w1 & E0 & E). apply lift_inv in E0. destruct E0 as [-> _].
  destruct ok; [eauto|]. apply bind_inv in E. destruct E as ([ok mx2] & w1 & E0 & E). apply lift_inv in E0. destruct E0 as [-> _].
  destruct ok; [eauto|]. unfold when in E. apply ret_inv in E. destruct E as [-> _]. auto.
Qed.
Lemma prepLoop_volume k fuel c flow : forall st dr (w w' : hpwh R), prepLoop k fuel c flow st dr w = (Ok tt, w') -> t_volume (w_tank w') = t_volume (w_tank w).
Proof.
  induction k as [|k IH]; intros st dr w w' E; cbn [prepLoop] in E; [discriminate|].
  apply bind_inv in E. destruct E as (w0 & w1 & E0 & E). apply get_inv in E0. destruct E0 as [-> ->].
  destruct (prepAdvance st dr (w_heating w)) as [[st' dr'] dn]. apply bind_inv in E. destruct E as ([] & w1 & E1 & E).
  apply testStep_volume in E1. destruct dn; [apply ret_inv in E; destruct E as [-> _]; auto|]. apply IH in E. congruence.
Qed.
Lemma run24_inv k fuel c d (w w' : hpwh R) s : run24hrTest k fuel c d w = (Ok s, w') ->
  exists w0 n pre te, idleLoop k fuel c 0 false [] w0 = (Ok (n, pre), snd (idleLoop k fuel c 0 false [] w0)) /\
    t_volume (w_tank w0) = t_volume (w_tank w) /\
    foldM (seq 0 1441) (minute24 fuel c (averageT (w_tank (snd (idleLoop k fuel c 0 false [] w0))))) (test0 d (averageT (w_tank (snd (idleLoop k fuel c 0 false [] w0))))) (snd (idleLoop k fuel c 0 false [] w0)) = (Ok te, w') /\
    summarise d (t_volume (w_tank w')) (averageT (w_tank (snd (idleLoop k fuel c 0 false [] w0)))) (map (shiftTime n) pre) te = Ok s.
Proof.
  unfold run24hrTest. intros E. apply bind_inv in E. destruct E as ([] & w1 & E1 & E). apply setTestSetpoint_tank in E1. destruct E1 as (E1 & _).
  apply bind_inv in E. destruct E as ([] & w2 & E2 & E). unfold prepareForTest in E2. apply bind_inv in E2. destruct E2 as (v & v' & E0 & E2). apply get_inv in E0. destruct E0 as [-> ->].
  apply prepLoop_volume in E2.
  apply bind_inv in E. destruct E as ([n pre] & w3 & E3 & E).
  apply bind_inv in E. destruct E as (v & v' & E0 & E). apply get_inv in E0. destruct E0 as [-> ->].
  cbv zeta in E. apply bind_inv in E. destruct E as (te & w4 & E4 & E).
  apply bind_inv in E. destruct E as (v & v' & E0 & E). apply get_inv in E0. destruct E0 as [-> ->].
  apply lift_inv in E. destruct E as [<- E]. exists w2, n, pre, te. rewrite E3. cbn [snd]. split; [reflexivity|]. split; [congruence|]. split; [exact E4|exact E].
Qed.
(** ** Facts about the patterns *)
Lemma pattern_fine d : Forall fineDraw (pattern d).
Proof. destruct d; unfold pattern; repeat (constructor; [split; cbn [d_flow d_vol]; unfold dec; num_simpl; lra|]); constructor. Qed.
Lemma pattern_sum d : Rsum (map (fun x => litre (d_vol x)) (pattern d)) = litre (dailyGallons d).
Proof. destruct d; unfold pattern, Rsum, litre, dailyGallons, dec; cbn [map fold_right d_vol]; num_simpl; lra. Qed.
Lemma quarter_minutes V x N : litre (1 / 4) <= V -> 1 <= d_flow x -> d_vol x <= INR N * (1 / 4) -> 0 < d_vol x -> (d_start x <= 1020)%nat -> within_minutes V x N.
Proof.
  intros HV HF HN HP HS. assert (HR : litre (1 / 4) <= rate V x) by (unfold rate; apply Rmin_glb; auto; unfold litre; lra).
  assert (0 <= INR N) by apply pos_INR. unfold litre in *. split; [|split; [auto|lra]]. unfold litre. nra.
Qed.
Lemma pattern_minutes V d : litre (1 / 4) <= V -> exists Ns, Forall2 (within_minutes V) (pattern d) Ns /\ (list_sum (map S Ns) <= 350)%nat.
Proof.
  intros HV.
  exists (match d with VerySmall => [8; 4; 2; 2; 2; 4; 8; 6; 4] | Low => [60; 8; 4; 24; 16; 4; 4; 4; 8; 8; 12]
          | Medium => [60; 8; 36; 36; 20; 4; 4; 4; 4; 8; 8; 28] | High => [108; 8; 4; 36; 60; 20; 4; 4; 4; 8; 8; 8; 8; 56] end)%nat.
  split; [|destruct d; cbn; lia].
  destruct d; unfold pattern; repeat (constructor; [apply quarter_minutes; [exact HV|cbn [d_flow]; unfold dec; num_simpl; lra|rewrite INR_IZR_INZ; cbn [d_vol Z.of_nat Pos.of_succ_nat Pos.succ]; unfold dec; num_simpl; lra|cbn [d_vol]; unfold dec; num_simpl; lra|cbn [d_start]; unfold hm; lia]|]); constructor.
Qed.
(** the minutes of a completed test *)
Lemma run24_minutes k fuel c d (w w' : hpwh R) s : run24hrTest k fuel c d w = (Ok s, w') ->
  exists w0 w1 pre0 rows n ws0 ws te, ts_rows s = map (shiftTime n) pre0 ++ rows /\ length pre0 = n /\ (60 <= n)%nat /\ length rows = 1441%nat /\
    minutes fuel c (fun _ => 0) 0 w0 pre0 ws0 w1 /\ Forall (fun r => td_draw r = 0) pre0 /\ (forall h, In h (w_hs w1) -> h_on h = false) /\
    minutes fuel c outletOf 0 w1 rows ws w' /\ t_volume (w_tank w1) = t_volume (w_tank w) /\ t_volume (w_tank w') = t_volume (w_tank w) /\
    map td_draw rows = plan (t_volume (w_tank w)) 0 1441 (mksched true false 0 0 (pattern d)) /\
    tallied (test0 d (tankT w1)) te rows /\ te_heated te = existsb (fun v => w_heating v) ws /\ te_prevT te = last (map tankT ws) (tankT w1) /\
    recovered (t_volume (w_tank w)) (tankT w1) 0 (test0 d (tankT w1)) te rows ws /\
    foldM (seq 0 1441) (minute24 fuel c (tankT w1)) (test0 d (tankT w1)) w1 = (Ok te, w') /\
    summarise d (t_volume (w_tank w)) (tankT w1) (map (shiftTime n) pre0) te = Ok s.
Proof.
  intros E. apply run24_inv in E. destruct E as (w0 & n & pre & te & E1 & E2 & E3 & E4).
  set (w1 := snd (idleLoop k fuel c 0 false [] w0)) in *. clearbody w1. pose proof E3 as E3'.
  apply idle24 in E1. destruct E1 as (more & ws0 & A1 & A2 & A3 & A4 & A5 & A6 & A7 & A8). cbn [app] in A1. subst more.
  apply loop24 in E3. destruct E3 as (rows & ws & B1 & B2 & B3 & B4 & B5 & B6 & B7 & B8 & B9).
  rewrite A7, E2 in *. rewrite B5 in E4. cbn [te_rows test0 app te_heated orb te_prevT] in B1, B7, B8.
  exists w0, w1, pre, rows, n, ws0, ws, te. 
  split; [|split; [lia|split; [exact A6|split; [exact B2|split; [exact A4|split; [exact A5|split; [apply A8; auto|split; [exact B3|split; [exact A7|split; [exact B5|split; [exact B4|split; [exact B6|split; [exact B7|split; [exact B8|split; [exact B9|split; [exact E3'|exact E4]]]]]]]]]]]]]]]].
  unfold summarise in E4. cbv zeta in E4. destruct (div_chk (to_outVT _) _) as [x|?|?|]; cbn [obind] in E4; try discriminate.
  destruct (div_chk (to_inVT _) _) as [y|?|?|]; cbn [obind] in E4; try discriminate. injection E4 as <-. cbn [ts_rows]. rewrite B1. reflexivity.
Qed.
(** volume removed by the draws that are due before minute [t] *)
Definition dueBefore (t : nat) (ds : list (draw (T:=R))) : R := Rsum (map (fun d => if Nat.ltb (d_start d) t then litre (d_vol d) else 0) ds).
Lemma due_nonneg t ds : Forall fineDraw ds -> 0 <= dueBefore t ds.
Proof.
  unfold dueBefore. induction 1 as [|d ds [_ Hd] HF IH]; cbn [map]; [cbn; lra|]. rewrite rsum_cons. unfold litre in *. destruct (Nat.ltb _ _); nra.
Qed.
Lemma in_skipn_repeat {A} (x y : A) m n : In x (skipn m (repeat y n)) -> x = y.
Proof. intros Hx. assert (HI : In x (repeat y n)) by (rewrite <- (firstn_skipn m (repeat y n)); apply in_or_app; auto). apply repeat_spec in HI. auto. Qed.
Lemma serves_due V t g ds vs rest : 0 < V -> Forall fineDraw ds -> serves V t g ds vs rest -> forall m, Rsum (firstn m vs) <= dueBefore (t + m) ds.
Proof.
  intros HV HF HS. induction HS as [t g ds|t ds vs rest HS IH|t vs rest HS IH|t d ds vs rest HL HS IH|t d ds n r vs rest HL Hr HE HS IH|t d ds n HL Hr]; intros m.
  - rewrite firstn_nil. apply due_nonneg; auto.
  - destruct m; cbn [firstn]; [apply due_nonneg; auto|]. rewrite rsum_cons. specialize (IH HF m). replace (t + S m)%nat with (S t + m)%nat by lia. lra.
  - destruct m; cbn [firstn]; [apply due_nonneg; auto|]. rewrite rsum_cons. specialize (IH HF m). replace (t + S m)%nat with (S t + m)%nat by lia. lra.
  - destruct m; cbn [firstn]; [apply due_nonneg; auto|]. rewrite rsum_cons. specialize (IH HF m). replace (t + S m)%nat with (S t + m)%nat by lia. lra.
  - inversion HF as [|? ? Hd HF']; subst. pose proof (rate_pos V d HV Hd) as HP. pose proof (due_nonneg (t + m) ds HF') as HN.
    unfold dueBefore. cbn [map]. rewrite rsum_cons. fold (dueBefore (t + m) ds).
    destruct m as [|m]; [cbn [firstn]; rewrite Nat.add_0_r in *; destruct (Nat.ltb _ _); destruct Hd; unfold Rsum, litre in *; cbn [fold_right]; nra|].
    replace (Nat.ltb (d_start d) (t + S m)) with true by (symmetry; apply Nat.ltb_lt; lia).
    destruct (Nat.le_gt_cases (S m) n) as [HM|HM].
    + rewrite firstn_app, repeat_length. replace (S m - n)%nat with 0%nat by lia. rewrite firstn_O, app_nil_r.
      assert (EF : firstn (S m) (repeat (rate V d) n) = repeat (rate V d) (S m)).
      { replace n with (S m + (n - S m))%nat at 1 by lia. rewrite repeat_app, firstn_app, repeat_length, Nat.sub_diag, firstn_O, app_nil_r. apply firstn_all2. rewrite repeat_length. auto. }
      rewrite EF, rsum_repeat. apply le_INR in HM. nra.
    + rewrite firstn_app, repeat_length, firstn_all2 by (rewrite repeat_length; lia). replace (S m - n)%nat with (S (m - n)) by lia. cbn [firstn].
      rewrite Rsum_app, rsum_repeat, rsum_cons. specialize (IH HF' (m - n)%nat). replace (t + n + 1 + (m - n))%nat with (t + S m)%nat in IH by lia. lra.
  - inversion HF as [|? ? Hd HF']; subst. pose proof (rate_pos V d HV Hd) as HP. pose proof (due_nonneg (t + m) ds HF') as HN.
    unfold dueBefore. cbn [map]. rewrite rsum_cons. fold (dueBefore (t + m) ds).
    destruct m as [|m]; [cbn [firstn]; rewrite Nat.add_0_r in *; destruct (Nat.ltb _ _); destruct Hd; unfold Rsum, litre in *; cbn [fold_right]; nra|].
    replace (Nat.ltb (d_start d) (t + S m)) with true by (symmetry; apply Nat.ltb_lt; lia).
    assert (Rsum (firstn (S m) (repeat (rate V d) n)) <= Rsum (repeat (rate V d) n)).
    { rewrite <- (firstn_skipn (S m) (repeat (rate V d) n)) at 2. rewrite Rsum_app.
      assert (0 <= Rsum (skipn (S m) (repeat (rate V d) n))); [|lra].
      assert (HFo : Forall (fun x => 0 <= x) (skipn (S m) (repeat (rate V d) n))). { apply Forall_forall. intros x Hx. apply in_skipn_repeat in Hx. lra. }
      clear -HFo. induction HFo; [cbn; lra|]. rewrite rsum_cons. lra. }
    rewrite rsum_repeat in H. lra.
Qed.
Lemma summarise_inv d V initT pre te (s : summary (T:=R)) : summarise d V initT pre te = Ok s ->
  to_removed (te_tot te) <> 0 /\ exists x y, x = to_outVT (te_tot te) / to_removed (te_tot te) /\ y = to_inVT (te_tot te) / to_removed (te_tot te) /\
    ts_avgOut s = x /\ ts_avgIn s = y /\ ts_removed s = to_removed (te_tot te) /\ ts_delivered s = to_delivered (te_tot te) /\
    ts_used s = to_used (te_tot te) /\ ts_el s = to_el (te_tot te) /\ ts_fossil s = 0 /\ ts_designation s = d /\
    ts_qualifies s = (te_heated te && negb (sc_drawing (te_sched te)))%bool.
Proof.
  unfold summarise. cbv zeta. intros E.
  destruct (div_chk (to_outVT _) _) as [x|?|?|] eqn:D1; cbn [obind] in E; try discriminate.
  destruct (div_chk (to_inVT _) _) as [y|?|?|] eqn:D2; cbn [obind] in E; try discriminate. injection E as <-.
  cbn [ts_avgOut ts_avgIn ts_removed ts_delivered ts_used ts_el ts_fossil ts_designation ts_qualifies].
  unfold div_chk in D1, D2. num_simpl. destruct (Reqb' (to_removed (te_tot te)) 0) eqn:B; cbn in D1, D2; try discriminate.
  apply Reqb'_false in B. injection D1 as <-. injection D2 as <-. split; [exact B|]. eexists _, _. repeat split.
Qed.
(** ** C64 *)
Lemma C64_schedule_fact : forall k fuel c d (w w' : hpwh R) s, 0 < t_volume (w_tank w) -> run24hrTest k fuel c d w = (Ok s, w') ->
  exists pre rows rest, ts_rows s = pre ++ rows /\ (60 <= length pre)%nat /\ Forall (fun r => td_draw r = 0) pre /\
    length rows = 1441%nat /\ map td_time rows = map Z.of_nat (seq 0 1441) /\
    serves (t_volume (w_tank w)) 0 true (pattern d) (map td_draw rows) rest.
Proof.
  intros k fuel c d w w' s HV E. apply run24_minutes in E. destruct E as (w0 & w1 & pre & rows & n & ws0 & ws & te & A1 & A2 & A3 & A4 & A5 & A6 & A7 & A8 & _ & _ & A9 & _).
  destruct (plan_serves _ HV 1441) as [_ HP]. destruct (HP 0%nat true 0 0 (pattern d) (pattern_fine d)) as (rest & HS). rewrite <- A9 in HS.
  exists (map (shiftTime n) pre), rows, rest. split; [exact A1|]. split; [rewrite map_length; lia|]. split; [|split; [exact A4|split; [|exact HS]]].
  - apply Forall_forall. intros r Hr. apply in_map_iff in Hr. destruct Hr as (r0 & <- & Hr). rewrite Forall_forall in A6. exact (A6 _ Hr).
  - rewrite <- A4. clear -A8. assert (G : forall f o t w rows ws w', minutes f c o t w rows ws w' -> forall m, t = Z.of_nat m -> map td_time rows = map Z.of_nat (seq m (length rows))).
    { clear. intros f o. induction 1 as [|t w v w1 r rows ws w' H1 H2 H3 IH]; intros m Em; auto. cbn [map length seq]. rewrite (ro_time _ _ _ _ _ _ H2), Em. f_equal. apply IH. lia. }
    exact (G _ _ _ _ _ _ _ A8 0%nat eq_refl).
Qed.
Lemma C64_total_fact : forall k fuel c d (w w' : hpwh R) s, litre (1 / 4) <= t_volume (w_tank w) -> run24hrTest k fuel c d w = (Ok s, w') ->
  ts_removed s = litre (dailyGallons d).
Proof.
  intros k fuel c d w w' s HV E. apply run24_minutes in E. destruct E as (w0 & w1 & pre & rows & n & ws0 & ws & te & A1 & A2 & A3 & A4 & A5 & A6 & A7 & A8 & _ & _ & A9 & A10 & _ & _ & _ & _ & A11).
  assert (HV0 : 0 < t_volume (w_tank w)) by (unfold litre in HV; lra).
  destruct (plan_serves _ HV0 1441) as [_ HP]. destruct (HP 0%nat true 0 0 (pattern d) (pattern_fine d)) as (rest & HS). rewrite <- A9 in HS.
  destruct (pattern_minutes _ d HV) as (Ns & HN & HL).
  assert (HR : rest = []).
  { destruct rest as [|x rest]; auto. exfalso. pose proof (serves_finish _ _ _ _ _ _ HS Ns HN) as HB. rewrite map_length, A4 in HB. assert (x :: rest <> []) by discriminate. specialize (HB H).
    clear -HB HL. rewrite Nat.add_0_l, Nat.add_0_r in HB. change (Nat.max 0 1020) with 1020%nat in HB. lia. }
  apply summarise_inv in A11. destruct A11 as (_ & x & y & _ & _ & _ & _ & -> & _). rewrite (tl_removed _ _ _ A10). cbn [test0 te_tot to_removed].
  unfold sumOver. rewrite (serves_sum _ _ _ _ _ _ HS HR), pattern_sum. num_simpl. lra.
Qed.
Lemma C64_limits_fact : forall k fuel c d (w w' : hpwh R) s, 0 < t_volume (w_tank w) -> run24hrTest k fuel c d w = (Ok s, w') ->
  exists pre rows, ts_rows s = pre ++ rows /\ length rows = 1441%nat /\
    Forall (fun r => 0 <= td_draw r <= t_volume (w_tank w)) rows /\
    (forall t, Rsum (firstn t (map td_draw rows)) <= dueBefore t (pattern d)) /\
    ts_removed s = Rsum (map td_draw rows) /\ ts_removed s <= 1441 * t_volume (w_tank w).
Proof.
  intros k fuel c d w w' s HV E. apply run24_minutes in E. destruct E as (w0 & w1 & pre & rows & n & ws0 & ws & te & A1 & A2 & A3 & A4 & A5 & A6 & A7 & A8 & _ & _ & A9 & A10 & _ & _ & _ & _ & A11).
  destruct (plan_serves _ HV 1441) as [_ HP]. destruct (HP 0%nat true 0 0 (pattern d) (pattern_fine d)) as (rest & HS). rewrite <- A9 in HS.
  pose proof (serves_range _ _ _ _ _ _ HV (pattern_fine d) HS) as HR.
  exists (map (shiftTime n) pre), rows. split; [exact A1|]. split; [exact A4|]. split; [|split; [|split]].
  - apply Forall_forall. intros r Hr. rewrite Forall_forall in HR. apply HR. apply in_map; auto.
  - intros t. exact (serves_due _ _ _ _ _ _ HV (pattern_fine d) HS t).
  - apply summarise_inv in A11. destruct A11 as (_ & x & y & _ & _ & _ & _ & -> & _). rewrite (tl_removed _ _ _ A10). cbn [test0 te_tot to_removed]. unfold sumOver. num_simpl. lra.
  - apply summarise_inv in A11. destruct A11 as (_ & x & y & _ & _ & _ & _ & -> & _). rewrite (tl_removed _ _ _ A10). cbn [test0 te_tot to_removed]. unfold sumOver.
    assert (G : forall l, Forall (fun v => 0 <= v <= t_volume (w_tank w)) l -> Rsum l <= INR (length l) * t_volume (w_tank w)).
    { induction 1 as [|v l Hv Hl IH]; [cbn; lra|]. rewrite rsum_cons. cbn [length]. rewrite S_INR. lra. }
    specialize (G _ HR). rewrite map_length, A4 in G. rewrite INR_IZR_INZ in G. change (Z.of_nat 1441) with 1441%Z in G. num_simpl. lra.
Qed.
Lemma C64_example_fact : exists s w', run24hrTest 1000 100 conf_UEF VerySmall (exUnit (T:=float) (map fofZ [50; 50; 50; 50]%Z)) = (Ok s, w') /\
  length (ts_rows s) = 1501%nat /\ ts_qualifies s = true /\ PrimFloat.ltb (ts_removed s) 37.875 = true /\ PrimFloat.ltb 37.75 (ts_removed s) = true /\
  firstn 5 (map (fun r => PrimFloat.ltb 3.75 (td_draw r)) (skipn 60 (ts_rows s))) = [true; true; false; false; false].
Proof.
  destruct (run24hrTest 1000 100 conf_UEF VerySmall (exUnit (T:=float) (map fofZ [50; 50; 50; 50]%Z))) as [o w'] eqn:E.
  assert (HS : match o with Ok s => length (ts_rows s) = 1501%nat /\ ts_qualifies s = true /\ PrimFloat.ltb (ts_removed s) 37.875 = true /\ PrimFloat.ltb 37.75 (ts_removed s) = true /\
    firstn 5 (map (fun r => PrimFloat.ltb 3.75 (td_draw r)) (skipn 60 (ts_rows s))) = [true; true; false; false; false] | _ => False end).
  { change o with (fst (o, w')). rewrite <- E. clear E. vm_compute. auto 6. }
  destruct o as [s|?|?|]; try contradiction. exists s, w'. auto.
Qed.

(** ** C65 *)
(** the class of a first-hour volume, by the thresholds of the standard *)
Inductive class_of (v : R) : designation -> Prop :=
| cl_vs : v < litre 18 -> class_of v VerySmall
| cl_low : litre 18 <= v < litre 51 -> class_of v Low
| cl_med : litre 51 <= v < litre 75 -> class_of v Medium
| cl_high : litre 75 <= v -> class_of v High.
Definition rank (d : designation) : nat := match d with VerySmall => 0 | Low => 1 | Medium => 2 | High => 3 end.
Lemma designate_class v : class_of v (designate v).
Proof.
  unfold designate. num_simpl. rewrite (litre_eq 18), (litre_eq 51), (litre_eq 75).
  destruct (Rltb v (litre 18)) eqn:B1; [apply Rltb_true in B1; constructor; auto|]. apply Rltb_false in B1.
  destruct (Rltb v (litre 51)) eqn:B2; [apply Rltb_true in B2; constructor; auto|]. apply Rltb_false in B2.
  destruct (Rltb v (litre 75)) eqn:B3; [apply Rltb_true in B3; constructor; auto|]. apply Rltb_false in B3. constructor; auto.
Qed.
Lemma fhr_inv k fuel (w w' : hpwh R) d v : findFirstHourRating k fuel w = (Ok (d, v), w') ->
  d = designate v /\ exists w1 w2 s, setTestSetpoint w = (Ok tt, w1) /\ prepareForTest k fuel conf_UEF w1 = (Ok tt, w2) /\
    fhrLoop k fuel (testFlow (t_volume (w_tank w))) (mkfhr 0 0 0 0 0 0 (tankT w1) 0 true 1 true 0 0 false) w2 = (Ok s, w') /\ v = f_rating s.
Proof.
  unfold findFirstHourRating. intros E. apply bind_inv in E. destruct E as (a & b & E0 & E). apply get_inv in E0. destruct E0 as [-> ->].
  cbv zeta in E. apply bind_inv in E. destruct E as ([] & w1 & E1 & E).
  apply bind_inv in E. destruct E as (a & b & E0 & E). apply get_inv in E0. destruct E0 as [-> ->]. cbv zeta in E.
  apply bind_inv in E. destruct E as ([] & w2 & E2 & E). apply bind_inv in E. destruct E as (s & w3 & E3 & E).
  apply ret_inv in E. destruct E as [-> E]. injection E as <- <-. split; [reflexivity|]. exists w1, w2, s. auto.
Qed.
Lemma C65_designation_fact : forall k fuel (w w' : hpwh R) d v, findFirstHourRating k fuel w = (Ok (d, v), w') -> class_of v d.
Proof. intros k fuel w w' d v E. apply fhr_inv in E. destruct E as (-> & _). apply designate_class. Qed.
Lemma C65_monotone_fact : forall u v d e, class_of u d -> class_of v e -> (u <= v -> (rank d <= rank e)%nat) /\ (u = v -> d = e).
Proof.
  intros u v d e H1 H2. unfold litre in *. destruct H1, H2; unfold litre in *; split; intros; cbn; try reflexivity; try lia; try (exfalso; lra).
Qed.


(** [ran fuel c w vs ws w']: one-minute steps from [w] with draws and demand-response modes [vs], leaving
    the states [ws], the last of which is [w'] *)
Inductive ran (fuel : nat) (c : testConf (T:=R)) : hpwh R -> list (R * Z) -> list (hpwh R) -> hpwh R -> Prop :=
| ran_nil w : ran fuel c w [] [] w
| ran_snoc w vs ws w1 v dr w2 : ran fuel c w vs ws w1 ->
    runOneStepInlet fuel (tc_inlet c) (mkin v (tc_amb c) (tc_ext c) dr 0 (tc_inlet c) None) w1 = (Ok tt, w2) ->
    ran fuel c w (vs ++ [(v, dr)]) (ws ++ [w2]) w2.
Definition drawnVol (vs : list (R * Z)) : R := Rsum (map fst vs).
(** volume times outlet temperature, minute by minute *)
Definition drawnVT (vs : list (R * Z)) (ws : list (hpwh R)) : R := Rsum (map (fun x => fst (fst x) * outletOf (snd x)) (combine vs ws)).
(** what a minute of drawing takes in the first-hour rating: 1.5 gallons from tanks below 20 gallons, 3
    gallons from larger ones, and never more than the tank holds *)
Definition hourRate (V : R) : R := Rmin (litre (if Rlt_dec V (litre 20) then 3 / 2 else 3)) V.
Lemma hourRate_eq V : minuteDraw (testFlow V) V true = hourRate V /\ (0 < V -> minuteDraw (testFlow V) V false = 0).
Proof.
  unfold minuteDraw, testFlow, hourRate, dec. num_simpl. repeat rewrite litre_eq. rewrite ?(litre_eq 20), ?(litre_eq (15 / 10)), ?(litre_eq 3). unfold litre. split.
  - destruct (Rltb V (20 * (378541 / 100000))) eqn:B; [apply Rltb_true in B; destruct (Rlt_dec _ _); [|lra]|apply Rltb_false in B; destruct (Rlt_dec _ _); [lra|]];
      match goal with |- (if ?x then _ else _) = _ => destruct x eqn:B2; [apply Rltb_true in B2|apply Rltb_false in B2] end; unfold Rmin; destruct (Rle_dec _ _); lra.
  - intros HV. destruct (Rltb V 0) eqn:B; auto. apply Rltb_true in B. lra.
Qed.
Lemma drawnVol_snoc vs x : drawnVol (vs ++ [x]) = drawnVol vs + fst x.
Proof. unfold drawnVol. rewrite map_app, Rsum_app. cbn. lra. Qed.
Lemma ran_len fuel c w vs ws w' : ran fuel c w vs ws w' -> length ws = length vs.
Proof. induction 1; auto. rewrite !app_length. cbn. lia. Qed.
Lemma combine_snoc {A B} (l : list A) (m : list B) x y : length l = length m -> combine (l ++ [x]) (m ++ [y]) = combine l m ++ [(x, y)].
Proof. revert m. induction l as [|a l IH]; intros [|b m] HL; try discriminate; auto. cbn in *. f_equal. apply IH. lia. Qed.
Lemma drawnVT_snoc vs ws x v : length ws = length vs -> drawnVT (vs ++ [x]) (ws ++ [v]) = drawnVT vs ws + fst x * outletOf v.
Proof. intros HL. unfold drawnVT. rewrite combine_snoc by auto. rewrite map_app, Rsum_app. cbn. lra. Qed.
(** average outlet temperature of everything drawn *)
Definition drawnT (vs : list (R * Z)) (ws : list (hpwh R)) : R := drawnVT vs ws / drawnVol vs.
(** the state of the rating after the minutes [vs]: [a] minutes are booked, [b] minutes of the present
    draw are counted, [e] draws have ended *)
Record rated (m : R) (s : fhr (T:=R)) (vs : list (R * Z)) (ws : list (hpwh R)) (a b e : nat) : Prop := {
  rt_time : f_time s = length vs;
  rt_shape : Forall (fun x => x = (m, 1%Z) \/ x = (0, 0%Z)) vs;
  rt_sumV : f_sumV s = drawnVol vs;
  rt_sumVT : f_sumVT s = drawnVT vs ws;
  rt_rating : f_rating s = m * INR a;
  rt_vol : f_step s = 0%nat -> f_vol s = m * INR b;
  rt_drawn : drawnVol vs = m * INR (a + b + e);
  rt_draw : f_step s = 0%nat -> f_drawing s = true /\ f_dr s = 1%Z;
  rt_rest : f_step s <> 0%nat -> f_drawing s = false /\ f_dr s = 0%Z /\ b = 0%nat /\ (1 <= e)%nat;
  rt_first : f_first s = true -> f_step s = 0%nat -> a = 0%nat /\ e = 0%nat /\ b = length vs /\ Forall (fun x => x = (m, 1%Z)) vs;
  rt_bound : (a + e <= 60)%nat /\ (a + b + e <= length vs)%nat /\ (60 <= length vs -> a + e <= length vs)%nat;
  rt_prev : (f_first s = false \/ f_step s <> 0%nat) -> (1 <= e)%nat /\ exists j v, (j < 60)%nat /\ nth_error ws j = Some v /\ f_prevMin s = outletOf v /\
    f_prevAvg s = drawnT (firstn (S j) vs) (firstn (S j) ws);
  rt_gap : f_first s = false -> In (0, 0%Z) vs
}.
Lemma firstn_snoc {A} n (l m : list A) : (n <= length l)%nat -> firstn n (l ++ m) = firstn n l.
Proof. intros HL. rewrite firstn_app. replace (n - length l)%nat with 0%nat by lia. rewrite firstn_O, app_nil_r. reflexivity. Qed.
Definition ratedEnd (m : R) (v : R) (vs : list (R * Z)) (ws : list (hpwh R)) : Prop := exists a b e fac,
  v = m * (INR a + fac * INR b) /\ drawnVol vs = m * INR (a + b + e + 1) /\ (a + e <= 60)%nat /\
  ((a = 0 /\ e = 0 /\ fac = 1%R /\ length vs = S b /\ Forall (fun x => x = (m, 1%Z)) vs) \/
   (1 <= e /\ In (0%R, 0%Z) vs /\ exists j w, j < 60 /\ nth_error ws j = Some w /\ drawnT (firstn (S j) vs) (firstn (S j) ws) <> outletOf w /\
      fac = ((drawnT vs ws - outletOf w) / (drawnT (firstn (S j) vs) (firstn (S j) ws) - outletOf w))%R))%nat.
Lemma div_ok (a b x : R) : div_chk a b = Ok x -> b <> 0 /\ x = a / b.
Proof. unfold div_chk. num_simpl. destruct (Reqb' b 0) eqn:B; cbn; intros E; [discriminate|]. apply Reqb'_false in B. injection E as <-. auto. Qed.
Lemma fhr_ran k fuel V : 0 < V -> forall s s' (w0 w w' : hpwh R) vs ws a b e, t_volume (w_tank w) = V -> ran fuel conf_UEF w0 vs ws w -> rated (hourRate V) s vs ws a b e ->
  fhrLoop k fuel (testFlow V) s w = (Ok s', w') ->
  exists vs' ws', ran fuel conf_UEF w0 vs' ws' w' /\ (61 <= length vs')%nat /\ Forall (fun x => x = (hourRate V, 1%Z) \/ x = (0, 0%Z)) vs' /\ ratedEnd (hourRate V) (f_rating s') vs' ws' /\ t_volume (w_tank w') = V.
Proof.
  intros HV. induction k as [|k IH]; intros s s' w0 w w' vs ws a b e EV HR HI E; cbn [fhrLoop] in E; [discriminate|].
  apply bind_inv in E. destruct E as (x0 & y0 & E0 & E). apply get_inv in E0. destruct E0 as [-> ->]. cbv zeta in E.
  apply bind_inv in E. destruct E as ([] & w1 & E1 & E). pose proof (testStep_volume _ _ _ _ _ _ E1) as EV1.
  apply bind_inv in E. destruct E as (x0 & y0 & E0 & E). apply get_inv in E0. destruct E0 as [-> ->].
  apply bind_inv in E. destruct E as (s1 & w2 & E2 & E). apply lift_inv in E2. destruct E2 as [-> E2].
  rewrite EV in *. destruct (hourRate_eq V) as [HT HF]. specialize (HF HV).
  set (inc := minuteDraw (testFlow V) V (f_drawing s)) in *.
  assert (HR1 : ran fuel conf_UEF w0 (vs ++ [(inc, f_dr s)]) (ws ++ [w1]) w1) by (eapply ran_snoc; [exact HR|exact E1]).
  pose proof (ran_len _ _ _ _ _ _ HR) as HL.
  destruct HI as [I1 I2 I3 I4 I5 I6 I7 I8 I9 I10 I11 I12 I13].
  set (V1 := vs ++ [(inc, f_dr s)]) in *. set (W1 := ws ++ [w1]) in *.
  assert (L1 : length V1 = S (length vs)) by (unfold V1; rewrite app_length; cbn; lia).
  assert (D1 : drawnVol V1 = drawnVol vs + inc) by (unfold V1; rewrite drawnVol_snoc; reflexivity).
  assert (D2 : drawnVT V1 W1 = drawnVT vs ws + inc * outletOf w1) by (unfold V1, W1; rewrite drawnVT_snoc by auto; reflexivity).
  assert (PREV : (1 <= e)%nat /\ (exists j v, (j < 60)%nat /\ nth_error ws j = Some v /\ f_prevMin s = outletOf v /\ f_prevAvg s = drawnT (firstn (S j) vs) (firstn (S j) ws)) ->
    exists j v, (j < 60)%nat /\ nth_error W1 j = Some v /\ f_prevMin s = outletOf v /\ f_prevAvg s = drawnT (firstn (S j) V1) (firstn (S j) W1)).
  { intros (_ & j & v & P1 & P2 & P3 & P4). assert (j < length ws)%nat by (apply nth_error_Some; congruence). exists j, v.
    unfold V1, W1. rewrite nth_error_app1, !firstn_snoc by lia. auto. }
  destruct (f_step s) as [|st] eqn:ES.
  - (* drawing *)
    destruct (I8 eq_refl) as [J1 J2]. assert (EI : inc = hourRate V) by (unfold inc; rewrite J1; exact HT). specialize (I6 eq_refl).
    assert (SH : Forall (fun x => x = (hourRate V, 1%Z) \/ x = (0, 0%Z)) V1) by (unfold V1; apply Forall_app; split; [exact I2|]; constructor; [left; rewrite EI, J2; reflexivity|constructor]).
    assert (D3 : drawnVol V1 = hourRate V * INR (a + b + e + 1)) by (rewrite D1, I7, EI, plus_INR with (m := 1%nat); cbn [INR]; lra).
    unfold fhrSwitch in E2. rewrite ES in E2. cbv zeta in E2.
    destruct (nltb _ _) eqn:EB.
    + destruct (div_chk _ _) as [avg|?|?|] eqn:EA; cbn [obind] in E2; try discriminate. apply div_ok in EA. num_simpl. destruct EA as [EA0 EA].
      rewrite I3, I4 in EA. change (t_outletT (w_tank w1)) with (outletOf w1) in EA. rewrite <- D1, <- D2 in EA. change (drawnVT V1 W1 / drawnVol V1) with (drawnT V1 W1) in EA.
      destruct (Nat.leb 60 (f_time s)) eqn:EL.
      * apply Nat.leb_le in EL. destruct (f_first s) eqn:EF.
        -- cbn [obind] in E2. injection E2 as <-. cbn [fhrTick f_done] in E. apply ret_inv in E. destruct E as [-> <-]. destruct (I10 eq_refl eq_refl) as (K1 & K2 & K3 & K4).
           exists V1, W1. split; [exact HR1|]. split; [lia|]. split; [exact SH|]. split; [|congruence].
           exists 0%nat, b, 0%nat, 1. cbn [fhrTick f_rating]. rewrite I5, I6, K1. num_simpl. split; [cbn [INR]; lra|]. split; [rewrite D3, K1, K2; reflexivity|]. split; [lia|]. left. split; [reflexivity|]. split; [reflexivity|]. split; [reflexivity|]. split; [lia|].
           unfold V1. apply Forall_app. split; [exact K4|]. constructor; [rewrite EI, J2; reflexivity|constructor].
        -- destruct (div_chk _ _) as [fac|?|?|] eqn:EF2; cbn [obind] in E2; try discriminate. apply div_ok in EF2. num_simpl. destruct EF2 as [EF3 EF2].
           injection E2 as <-. cbn [fhrTick f_done] in E. apply ret_inv in E. destruct E as [-> <-].
           pose proof (I12 (or_introl eq_refl)) as PV. destruct (PREV PV) as (j & v & P1 & P2 & P3 & P4).
           exists V1, W1. split; [exact HR1|]. split; [lia|]. split; [exact SH|]. split; [|congruence].
           exists a, b, e, fac. cbn [fhrTick f_rating]. rewrite I5, I6. num_simpl. split; [lra|]. split; [exact D3|]. split; [lia|]. right. split; [exact (proj1 PV)|]. split; [unfold V1; apply in_or_app; left; auto|]. exists j, v.
           rewrite P3, P4 in *. split; [exact P1|]. split; [exact P2|]. split; [lra|]. rewrite EF2, EA. reflexivity.
      * apply Nat.leb_gt in EL. injection E2 as <-. cbn [fhrTick f_done] in E.
        assert (HH : rated (hourRate V) (fhrTick inc (mkfhr (f_rating s + f_vol s) 0 (f_sumVT s + inc * outletOf w1) (f_sumV s + inc) avg (outletOf w1) (averageT (w_tank w1)) (outletOf w1) false 0 (f_first s) 1 (f_time s) false)) V1 W1 (a + b) 0 (e + 1)).
        { constructor; cbn [fhrTick f_time f_sumV f_sumVT f_rating f_vol f_step f_drawing f_dr f_first f_prevMin f_prevAvg]; try (intros; discriminate).
          - lia.
          - exact SH.
          - rewrite I3, D1. reflexivity.
          - rewrite I4, D2. reflexivity.
          - rewrite I5, I6, plus_INR. lra.
          - rewrite D3. f_equal. f_equal. lia.
          - intros _. split; [reflexivity|]. split; [reflexivity|]. split; [reflexivity|lia].
          - lia.
          - intros _. split; [lia|]. exists (length vs), w1. split; [lia|]. split; [unfold W1; rewrite nth_error_app2, HL, Nat.sub_diag by lia; reflexivity|]. split; [reflexivity|].
            rewrite !firstn_all2; [exact EA|unfold W1; rewrite app_length; cbn; lia|lia].
          - intros HF0. unfold V1. apply in_or_app. left; auto. }
        apply (IH _ _ w0 w1 w' V1 W1 _ _ _ EV1 HR1 HH E).
    + injection E2 as <-. cbn [fhrTick f_done] in E.
      eapply (IH _ _ w0 w1 w' V1 W1 a (S b) e EV1 HR1 _ E). Unshelve.
      constructor; cbn [fhrTick f_time f_sumV f_sumVT f_rating f_vol f_step f_drawing f_dr f_first f_prevMin f_prevAvg]; num_simpl.
      * lia.
      * exact SH.
      * rewrite I3, D1. reflexivity.
      * rewrite I4, D2. reflexivity.
      * exact I5.
      * intros _. rewrite I6, EI, S_INR. lra.
      * rewrite D3. f_equal. f_equal. lia.
      * intros _. auto.
      * intros []; reflexivity.
      * intros EF _. destruct (I10 EF eq_refl) as (K1 & K2 & K3 & K4). split; [exact K1|]. split; [exact K2|]. split; [lia|]. unfold V1. apply Forall_app. split; [exact K4|]. constructor; [rewrite EI, J2; reflexivity|constructor].
      * lia.
      * intros HP. pose proof (I12 HP) as PV. split; [exact (proj1 PV)|]. exact (PREV PV).
      * intros HF0. unfold V1. apply in_or_app. left; auto.
  - (* waiting *)
    destruct (I9 ltac:(lia)) as (J1 & J2 & J3 & J4). assert (EI : inc = 0) by (unfold inc; rewrite J1; exact HF). subst b.
    assert (SH : Forall (fun x => x = (hourRate V, 1%Z) \/ x = (0, 0%Z)) V1) by (unfold V1; apply Forall_app; split; [exact I2|]; constructor; [right; rewrite EI, J2; reflexivity|constructor]).
    pose proof (I12 ltac:(lia)) as PV. pose proof (PREV PV) as PV1.
    assert (F1 : f_done s1 = false /\ f_rating s1 = f_rating s /\ f_sumVT s1 = f_sumVT s /\ f_sumV s1 = f_sumV s /\ f_prevAvg s1 = f_prevAvg s /\ f_prevMin s1 = f_prevMin s /\ f_time s1 = f_time s /\
      ((f_step s1 <> 0%nat /\ f_drawing s1 = false /\ f_dr s1 = 0%Z) \/ (f_step s1 = 0%nat /\ f_drawing s1 = true /\ f_dr s1 = 1%Z /\ f_first s1 = false /\ f_vol s1 = 0))).
    { unfold fhrSwitch in E2. rewrite ES in E2. destruct st as [|st].
      - injection E2 as <-. cbn [f_done f_rating f_sumVT f_sumV f_prevAvg f_prevMin f_time f_step f_drawing f_dr f_first f_vol].
        do 7 (split; [reflexivity|]). left. rewrite J1, J2. split; [destruct (w_heating w1); discriminate|auto].
      - destruct (_ && _)%bool; injection E2 as <-; cbn [f_done f_rating f_sumVT f_sumV f_prevAvg f_prevMin f_time f_step f_drawing f_dr f_first f_vol]; (do 7 (split; [reflexivity|])).
        + left. rewrite J1, J2. split; [discriminate|auto].
        + right. auto 6. }
    destruct F1 as (F0 & F1 & F2 & F3 & F4 & F5 & F6 & F7). cbn [fhrTick f_done] in E. rewrite F0 in E.
    eapply (IH _ _ w0 w1 w' V1 W1 a 0%nat e EV1 HR1 _ E). Unshelve.
    constructor; cbn [fhrTick f_time f_sumV f_sumVT f_rating f_vol f_step f_drawing f_dr f_first f_prevMin f_prevAvg]; num_simpl; rewrite ?F1, ?F2, ?F3, ?F4, ?F5, ?F6.
    + lia.
    + exact SH.
    + rewrite I3, D1, EI. lra.
    + rewrite I4, D2, EI. lra.
    + exact I5.
    + intros H0. destruct F7 as [(G1 & _)|(_ & _ & _ & _ & G1)]; [lia|]. rewrite G1, EI. cbn [INR]. lra.
    + rewrite D1, I7, EI. lra.
    + intros H0. destruct F7 as [(G1 & _)|(_ & G1 & G2 & _)]; [lia|auto].
    + intros H0. destruct F7 as [(_ & G1 & G2)|(G1 & _)]; [auto|lia].
    + intros H0 H1. destruct F7 as [(G1 & _)|(_ & _ & _ & G1 & _)]; [lia|congruence].
    + lia.
    + intros _. split; [exact J4|exact PV1].
    + intros _. unfold V1. apply in_or_app. right. left. rewrite EI, J2. reflexivity.
Qed.
Lemma C65_volume_fact : forall k fuel (w w' : hpwh R) d v, 0 < t_volume (w_tank w) -> findFirstHourRating k fuel w = (Ok (d, v), w') ->
  exists w2 vs ws, ran fuel conf_UEF w2 vs ws w' /\ (61 <= length vs)%nat /\
    Forall (fun x => x = (hourRate (t_volume (w_tank w)), 1%Z) \/ x = (0, 0%Z)) vs /\ ratedEnd (hourRate (t_volume (w_tank w))) v vs ws.
Proof.
  intros k fuel w w' d v HV E. apply fhr_inv in E. destruct E as (_ & w1 & w2 & s & E1 & E2 & E3 & ->). apply setTestSetpoint_tank in E1. destruct E1 as (E1 & _).
  unfold prepareForTest in E2. apply bind_inv in E2. destruct E2 as (x0 & y0 & E0 & E2). apply get_inv in E0. destruct E0 as [-> ->]. apply prepLoop_volume in E2. rewrite E1 in E2.
  assert (HI : rated (hourRate (t_volume (w_tank w))) (mkfhr 0 0 0 0 0 0 (tankT w1) 0 true 1 true 0 0 false) [] [] 0 0 0).
  { constructor; cbn [f_time f_sumV f_sumVT f_rating f_vol f_step f_drawing f_dr f_first f_prevMin f_prevAvg length]; unfold drawnVol, drawnVT; cbn; try lra; try lia; auto. }
  destruct (fhr_ran k fuel _ HV _ _ w2 w2 w' [] [] 0%nat 0%nat 0%nat E2 (ran_nil _ _ _) HI E3) as (vs & ws & Q1 & Q2 & Q3 & Q4 & _). exists w2, vs, ws. auto.
Qed.
Lemma C65_sustained_fact : forall k fuel (w w' : hpwh R) d v, litre (5 / 4) <= t_volume (w_tank w) -> findFirstHourRating k fuel w = (Ok (d, v), w') ->
  exists w2 vs ws, ran fuel conf_UEF w2 vs ws w' /\ (d <> High -> In (0, 0%Z) vs) /\ (v < litre 75 -> d <> High).
Proof.
  intros k fuel w w' d v HV E. assert (HV0 : 0 < t_volume (w_tank w)) by (unfold litre in HV; lra). pose proof E as E'. apply C65_designation_fact in E'.
  destruct (C65_volume_fact _ _ _ _ _ _ HV0 E) as (w2 & vs & ws & Q1 & Q2 & Q3 & Q4). exists w2, vs, ws. split; [exact Q1|].
  split; [|intros Hv ->; inversion E'; lra].
  intros HD. destruct Q4 as (a & b & e & fac & A1 & A2 & A3 & [(B1 & B2 & B3 & B4 & B5)|(B1 & B2 & _)]).
  - exfalso. subst a e fac. set (m := hourRate (t_volume (w_tank w))) in *. assert (HM : litre (5 / 4) <= m).
    { unfold m, hourRate. apply Rmin_glb; auto. unfold litre. destruct (Rlt_dec _ _); lra. }
    assert (60 <= INR b) by (replace 60 with (INR 60) by (rewrite INR_IZR_INZ; reflexivity); apply le_INR; lia).
    assert (litre 75 <= v) by (rewrite A1; unfold litre in *; cbn [INR]; nra). apply HD. inversion E'; auto; unfold litre in *; lra.
  - exact B2.
Qed.

Lemma C65_example_fact : exists v w', findFirstHourRating 1000 100 (exUnit (T:=float) (map fofZ [50; 50; 50; 50]%Z)) = (Ok (Low, v), w') /\
  PrimFloat.ltb 149 v = true /\ PrimFloat.ltb v 150 = true.
Proof.
  destruct (findFirstHourRating 1000 100 (exUnit (T:=float) (map fofZ [50; 50; 50; 50]%Z))) as [o w'] eqn:E.
  assert (HS : match o with Ok (Low, v) => PrimFloat.ltb 149 v = true /\ PrimFloat.ltb v 150 = true | _ => False end).
  { change o with (fst (o, w')). rewrite <- E. clear E. vm_compute. auto. }
  destruct o as [[[| | |] v]|?|?|]; try contradiction. exists v, w'. auto.
Qed.

(** ** C75 *)
Lemma rowOf_shift c t v o w r n : rowOf c t v o w r -> rowOf c (t - Z.of_nat n) v o w (shiftTime n r).
Proof. intros [A1 A2 A3 A4 A5 A6 A7 A8 A9]. constructor; cbn [shiftTime td_time td_draw td_amb td_inlet td_dr td_setpoint td_in td_out td_tc td_outlet]; auto. rewrite A1. reflexivity. Qed.
Lemma minutes_shift fuel c o n t w rows ws w' : minutes fuel c o t w rows ws w' -> minutes fuel c o (t - Z.of_nat n) w (map (shiftTime n) rows) ws w'.
Proof.
  induction 1 as [|t w v w1 r rows ws w' H1 H2 H3 IH]; [apply mi_nil|]. cbn [map]. apply mi_cons with (v := v); auto; [apply rowOf_shift; auto|].
  replace (t - Z.of_nat n + 1)%Z with (t + 1 - Z.of_nat n)%Z by lia. exact IH.
Qed.
Lemma C75_record_fact : forall k fuel c d (w w' : hpwh R) s, run24hrTest k fuel c d w = (Ok s, w') ->
  exists w0 w1 pre rows ws0 ws, ts_rows s = pre ++ rows /\ (60 <= length pre)%nat /\ length rows = 1441%nat /\
    minutes fuel c (fun _ => 0) (- Z.of_nat (length pre)) w0 pre ws0 w1 /\ Forall (fun r => td_draw r = 0) pre /\ (forall h, In h (w_hs w1) -> h_on h = false) /\
    minutes fuel c outletOf 0 w1 rows ws w' /\ (forall r, In r (ts_rows s) -> td_dr r = 0%Z).
Proof.
  intros k fuel c d w w' s E. apply run24_minutes in E. destruct E as (w0 & w1 & pre & rows & n & ws0 & ws & te & A1 & A2 & A3 & A4 & A5 & A6 & A7 & A8 & _).
  apply minutes_shift with (n := n) in A5. exists w0, w1, (map (shiftTime n) pre), rows, ws0, ws. rewrite map_length, A2.
  split; [exact A1|]. split; [exact A3|]. split; [exact A4|]. split; [exact A5|]. split; [|split; [exact A7|split; [exact A8|]]].
  - apply Forall_forall. intros r Hr. apply in_map_iff in Hr. destruct Hr as (r0 & <- & Hr). rewrite Forall_forall in A6. exact (A6 _ Hr).
  - assert (G : forall o t w rows ws w', minutes fuel c o t w rows ws w' -> forall r, In r rows -> td_dr r = 0%Z).
    { clear. intros o. induction 1 as [|t w v w1 r rows ws w' H1 H2 H3 IH]; intros r0 Hr; [destruct Hr|]. destruct Hr as [<-|Hr]; [exact (ro_dr _ _ _ _ _ _ H2)|auto]. }
    intros r Hr. rewrite A1 in Hr. apply in_app_or in Hr. destruct Hr as [Hr|Hr]; [exact (G _ _ _ _ _ _ A5 _ Hr)|exact (G _ _ _ _ _ _ A8 _ Hr)].
Qed.
Lemma C75_totals_fact : forall k fuel c d (w w' : hpwh R) s, run24hrTest k fuel c d w = (Ok s, w') ->
  exists w1 pre rows ws, ts_rows s = pre ++ rows /\ minutes fuel c outletOf 0 w1 rows ws w' /\ length rows = 1441%nat /\
    ts_removed s = sumOver td_draw rows /\ ts_removed s <> 0 /\ ts_delivered s = sumOver rowDelivered rows /\
    ts_used s = sumOver rowUsed rows /\ ts_el s = ts_used s /\ ts_fossil s = 0 /\
    ts_avgOut s * ts_removed s = sumOver (fun r => td_draw r * td_outlet r) rows /\ ts_avgIn s = tc_inlet c /\ ts_designation s = d /\
    (ts_qualifies s = true -> exists v, In v ws /\ w_heating v = true).
Proof.
  intros k fuel c d w w' s E. apply run24_minutes in E. destruct E as (w0 & w1 & pre & rows & n & ws0 & ws & te & A1 & A2 & A3 & A4 & A5 & A6 & A7 & A8 & _ & _ & A9 & [B1 B2 B3 B4 B5 B6] & A10 & _ & _ & _ & A11).
  apply summarise_inv in A11. destruct A11 as (C0 & x & y & Cx & Cy & C1 & C2 & C3 & C4 & C5 & C6 & C7 & C8 & C9).
  cbn [test0 te_tot to_removed to_delivered to_used to_el to_outVT to_inVT] in *. num_simpl.
  exists w1, (map (shiftTime n) pre), rows, ws. split; [exact A1|]. split; [exact A8|]. split; [exact A4|]. split; [lra|]. split; [congruence|]. split; [lra|]. split; [lra|]. split; [lra|]. split; [exact C7|].
  split; [rewrite C1, C3, Cx; field_simplify; [lra|exact C0]|]. split; [|split; [exact C8|]].
  - rewrite C2, Cy, B6. assert (G : forall o t w rows ws w', minutes fuel c o t w rows ws w' -> sumOver (fun r => td_draw r * td_inlet r) rows = sumOver td_draw rows * tc_inlet c).
    { clear. intros o. induction 1 as [|t w v w1 r rows ws w' H1 H2 H3 IH]; [unfold sumOver; cbn; lra|]. rewrite !sumOver_cons, IH. destruct (ro_conf _ _ _ _ _ _ H2) as [_ ->]. lra. }
    rewrite (G _ _ _ _ _ _ A8). replace (sumOver td_draw rows) with (to_removed (te_tot te)) by lra. field. exact C0.
  - intros HQ. rewrite C9 in HQ. apply andb_prop in HQ. destruct HQ as [HQ _]. rewrite A10 in HQ. apply existsb_exists in HQ. exact HQ.
Qed.

(** ** C76 *)
(** the figures of the summary in terms of the variables of the loop *)
Lemma summarise_recovery d V initT pre te (s : summary (T:=R)) : summarise d V initT pre te = Ok s ->
  ts_recEnd s = INR (rc_end (te_rec te)) /\ ts_recVol s = rc_vol (te_rec te) /\ ts_recDelivered s = rc_delivered (te_rec te) /\
  ts_recStored s = rc_stored (te_rec te) /\ ts_recUsed s = rc_used (te_rec te) /\
  ts_recEff s = (if Rlt_dec 0 (ts_recUsed s) then (ts_recStored s + ts_recDelivered s) / ts_recUsed s else 0).
Proof.
  unfold summarise. cbv zeta. intros E.
  destruct (div_chk (to_outVT _) _) as [x|?|?|]; cbn [obind] in E; try discriminate.
  destruct (div_chk (to_inVT _) _) as [y|?|?|]; cbn [obind] in E; try discriminate. injection E as <-.
  cbn [ts_recEnd ts_recVol ts_recDelivered ts_recStored ts_recUsed ts_recEff]. unfold nofN. num_simpl. rewrite <- INR_IZR_INZ.
  split; [reflexivity|]. do 4 (split; [reflexivity|]).
  destruct (Rltb 0 (rc_used (te_rec te))) eqn:B; [apply Rltb_true in B|apply Rltb_false in B]; destruct (Rlt_dec _ _); auto; lra.
Qed.
Lemma sumOver_scale f k rows : sumOver (fun r => k * f r) rows = k * sumOver f rows.
Proof. induction rows as [|r rows IH]; [unfold sumOver; cbn; lra|]. rewrite !sumOver_cons, IH. lra. Qed.
Lemma sumOver_ext f g rows : (forall r, f r = g r) -> sumOver f rows = sumOver g rows.
Proof. intros HE. unfold sumOver. f_equal. apply map_ext. exact HE. Qed.
Lemma delivered_sum rows : sumOver rowDelivered rows = 418 / 100 * (995 / 1000) * sumOver (fun r => td_draw r * (td_outlet r - td_inlet r)) rows.
Proof. rewrite <- sumOver_scale. apply sumOver_ext. intros r. unfold rowDelivered, waterHeat. ring. Qed.
Lemma C76_recovery_fact : forall k fuel c d (w w' : hpwh R) s, run24hrTest k fuel c d w = (Ok s, w') ->
  exists w1 pre rows ws e, ts_rows s = pre ++ rows /\ minutes fuel c outletOf 0 w1 rows ws w' /\ length rows = 1441%nat /\
    let period := firstn (S e) rows in
    ts_recVol s = sumOver td_draw period /\ ts_recUsed s = sumOver rowUsed period /\
    ((ts_recEnd s = 0 /\ (1440 <= e)%nat /\ ts_recStored s = 0 /\ ts_recDelivered s = 0 /\ ts_recEff s = 0) \/
     (ts_recEnd s = INR e /\ (1 <= e <= 1440)%nat /\ ts_recDelivered s = sumOver rowDelivered period /\
      (exists v u, nth_error ws e = Some v /\ w_heating v = false /\ In u (firstn e ws) /\ w_heating u = true) /\
      (exists v, nth_error ws (e - 1) = Some v /\ ts_recStored s = waterHeat (t_volume (w_tank w)) (tankT v - tankT w1)))).
Proof.
  intros k fuel c d w w' s E. apply run24_minutes in E. destruct E as (w0 & w1 & pre & rows & n & ws0 & ws & te & A1 & A2 & A3 & A4 & A5 & A6 & A7 & A8 & _ & _ & A9 & _ & A10 & A12 & A13 & _ & A11).
  apply summarise_recovery in A11. destruct A11 as (C1 & C2 & C3 & C4 & C5 & C6).
  assert (LW : length ws = 1441%nat). { rewrite <- A4. clear -A8. induction A8; auto. cbn. lia. }
  destruct (A13 eq_refl) as [(B1 & (B2 & B3 & B4) & B5 & B6 & B7)|(B1 & e & v & B2 & B3 & B4 & B5 & (B6 & B7 & B8) & B9 & B10)]; cbn [test0 te_rec rc_vol rc_used rc_end rc_stored rc_delivered rc_outVT rc_inVT te_heated orb te_prevT] in *; num_simpl.
  - exists w1, (map (shiftTime n) pre), rows, ws, 1440%nat. split; [exact A1|]. split; [exact A8|]. split; [exact A4|]. cbv zeta. rewrite firstn_all2 by lia.
    split; [lra|]. split; [lra|]. left. split; [rewrite C1, B5; reflexivity|]. split; [lia|]. split; [lra|]. split; [lra|]. rewrite C6, C3, C4, B6, B7. destruct (Rlt_dec _ _); [|lra]. unfold Rdiv. ring.
  - assert (LE : (e < 1441)%nat) by (rewrite <- LW; apply nth_error_Some; congruence).
    exists w1, (map (shiftTime n) pre), rows, ws, e. split; [exact A1|]. split; [exact A8|]. split; [exact A4|]. cbv zeta.
    split; [lra|]. split; [lra|]. right. apply existsb_exists in B4. destruct B4 as (u & U1 & U2).
    assert (1 <= e)%nat by (destruct e; [destruct U1|lia]).
    split; [rewrite C1, B5; reflexivity|]. split; [lia|]. split; [rewrite C3, B10, delivered_sum; lra|]. split; [exists v, u; auto|].
    destruct (nth_error ws (e - 1)) as [v1|] eqn:EN; [|apply nth_error_None in EN; lia]. exists v1. split; [reflexivity|]. rewrite C4, B9. f_equal. f_equal.
    assert (EF : firstn e ws = firstn (e - 1) ws ++ [v1]).
    { apply nth_error_split in EN. destruct EN as (l1 & l2 & -> & HL). clear -HL H. replace e with (S (length l1)) by lia. replace (S (length l1) - 1)%nat with (length l1) by lia. rewrite !firstn_app, firstn_all, Nat.sub_diag, firstn_O, app_nil_r, firstn_all2 by lia. replace (S (length l1) - length l1)%nat with 1%nat by lia. reflexivity. }
    rewrite EF, map_app. cbn [map]. rewrite last_last. reflexivity.
Qed.
Lemma C76_efficiency_fact : forall k fuel c d (w w' : hpwh R) s, run24hrTest k fuel c d w = (Ok s, w') ->
  (0 < ts_recUsed s -> ts_recEff s * ts_recUsed s = ts_recStored s + ts_recDelivered s) /\ (ts_recUsed s <= 0 -> ts_recEff s = 0).
Proof.
  intros k fuel c d w w' s E. apply run24_minutes in E. destruct E as (w0 & w1 & pre & rows & n & ws0 & ws & te & A1 & A2 & A3 & A4 & A5 & A6 & A7 & A8 & _ & _ & A9 & _ & A10 & A12 & A13 & _ & A11).
  apply summarise_recovery in A11. destruct A11 as (C1 & C2 & C3 & C4 & C5 & C6). rewrite C6. split; intros HU; destruct (Rlt_dec _ _); try lra. field. lra.
Qed.

(** ** C77 *)
Lemma fold24 fuel c initT (P : nat -> test (T:=R) -> Prop) : (forall t s (w w' : hpwh R) s', P t s -> minute24 fuel c initT t s w = (Ok s', w') -> P (S t) s') ->
  forall n t s (w w' : hpwh R) s', P t s -> foldM (seq t n) (minute24 fuel c initT) s w = (Ok s', w') -> P (t + n)%nat s'.
Proof.
  intros HP. induction n as [|n IH]; intros t s w w' s' H0 E; cbn [seq foldM] in E.
  - apply ret_inv in E. destruct E as [_ ->]. rewrite Nat.add_0_r. exact H0.
  - apply bind_inv in E. destruct E as (s1 & w1 & E1 & E). replace (t + S n)%nat with (S t + n)%nat by lia. eapply IH; [|exact E]. eapply HP; eauto.
Qed.
Lemma noDraw_mean fuel c initT n (s s' : test (T:=R)) (w w' : hpwh R) : foldM (seq 0 n) (minute24 fuel c initT) s w = (Ok s', w') ->
  te_noDrawA s = INR (te_noDraw s) * tc_amb c -> te_noDrawA s' = INR (te_noDraw s') * tc_amb c.
Proof.
  intros E H0. refine (fold24 fuel c initT (fun _ s => te_noDrawA s = INR (te_noDraw s) * tc_amb c) _ n 0 s w w' s' H0 E).
  clear. intros t s w w' s' HI E. apply minute24_inv in E. destruct E as (row & E). destruct (takeDraw _) as [sc nd]. destruct E as (_ & _ & _ & ->).
  unfold tally. cbv zeta. cbn [te_noDrawA te_noDraw]. destruct nd; auto. rewrite S_INR, HI. num_simpl. lra.
Qed.
(** the heat the day's water takes when warmed by the standard's 75 degrees Fahrenheit, from 50 to 125 *)
Definition standardHeat (removed : R) : R := waterHeat removed (75 * 5 / 9).
Definition perEff (x eff : R) : R := if Rlt_dec 0 eff then x / eff else 0.
Lemma summarise_energy d V initT pre te (s : summary (T:=R)) : summarise d V initT pre te = Ok s ->
  ts_consumed s = ts_used s - perEff (waterHeat V (te_prevT te - initT)) (ts_recEff s) /\
  ts_heating s = perEff (ts_delivered s) (ts_recEff s) /\ ts_standard s = perEff (standardHeat (ts_removed s)) (ts_recEff s) /\
  ts_modified s = ts_adjusted s + (ts_standard s - ts_heating s) /\
  ts_EF s = (if Rlt_dec 0 (ts_modified s) then standardHeat (ts_removed s) / ts_modified s else 0) /\
  ts_annual s = (if Rlt_dec 0 (ts_EF s) then 365 * waterHeat (ts_removed s) (35 * 5 / 9) / ts_EF s else 0) /\
  ts_annualEl s = (if Rlt_dec 0 (ts_used s) then ts_el s / ts_used s * ts_annual s else 0) /\
  ts_noDrawTime s = INR (te_noDraw te) / 60 /\
  ts_noDrawAmb s = (if Nat.ltb 0 (te_noDraw te) then te_noDrawA te / INR (te_noDraw te) else 0) /\
  ts_adjusted s = ts_consumed s - (355 / 18 - ts_noDrawAmb s) * ts_stbyUA s * ts_noDrawTime s.
Proof.
  unfold summarise. cbv zeta. intros E.
  destruct (div_chk (to_outVT _) _) as [x|?|?|]; cbn [obind] in E; try discriminate.
  destruct (div_chk (to_inVT _) _) as [y|?|?|]; cbn [obind] in E; try discriminate. injection E as <-.
  cbn [ts_consumed ts_used ts_recEff ts_heating ts_standard ts_delivered ts_removed ts_modified ts_adjusted ts_EF ts_annual ts_annualEl ts_el ts_noDrawTime ts_noDrawAmb ts_stbyUA].
  unfold nofN, perEff, standardHeat, waterHeat, CPWATER, DENSITYWATER, F_TO_C, min_per_hr, dec. num_simpl. rewrite <- !INR_IZR_INZ.
  set (eff := if Rltb 0 (rc_used (te_rec te)) then _ else _). set (ua := if (_ && _)%bool then _ else _).
  assert (HB : forall (a : R) (u v : R), (if Rltb 0 a then u else v) = (if Rlt_dec 0 a then u else v)).
  { intros a u v. destruct (Rltb 0 a) eqn:B; [apply Rltb_true in B|apply Rltb_false in B]; destruct (Rlt_dec _ _); auto; lra. }
  rewrite !HB.
  split; [destruct (Rlt_dec 0 eff); lra|]. split; [reflexivity|]. split; [destruct (Rlt_dec 0 eff); [field; lra|reflexivity]|].
  split; [reflexivity|]. split; [match goal with |- (if ?p then _ else _) = _ => destruct p end; [field; lra|reflexivity]|].
  split; [|split; [reflexivity|split; [reflexivity|split; [reflexivity|lra]]]].
  match goal with |- (if ?p then _ else _) = _ => destruct p end; [field; lra|reflexivity].
Qed.

Lemma minutes_last fuel c o t w rows ws w' : minutes fuel c o t w rows ws w' -> w' = last ws w.
Proof. induction 1 as [|t w v w1 r rows ws w' H1 H2 H3 IH]; auto. rewrite last_cons. exact IH. Qed.
Lemma map_last {A B} (f : A -> B) l x : last (map f l) (f x) = f (last l x).
Proof. revert x. induction l as [|y l IH]; intros x; auto. cbn [map]. rewrite !last_cons. apply IH. Qed.
Lemma C77_figures_fact : forall k fuel c d (w w' : hpwh R) s, run24hrTest k fuel c d w = (Ok s, w') ->
  exists w1 pre rows ws, ts_rows s = pre ++ rows /\ length rows = 1441%nat /\ minutes fuel c outletOf 0 w1 rows ws w' /\
    ts_consumed s = ts_used s - perEff (waterHeat (t_volume (w_tank w)) (tankT w' - tankT w1)) (ts_recEff s) /\
    ts_heating s = perEff (ts_delivered s) (ts_recEff s) /\ ts_standard s = perEff (standardHeat (ts_removed s)) (ts_recEff s) /\
    ts_adjusted s = ts_consumed s - (355 / 18 - tc_amb c) * ts_stbyUA s * ts_noDrawTime s /\
    ts_modified s = ts_adjusted s + (ts_standard s - ts_heating s) /\
    (0 < ts_modified s -> ts_EF s * ts_modified s = standardHeat (ts_removed s)) /\ (ts_modified s <= 0 -> ts_EF s = 0) /\
    (0 < ts_used s -> ts_annualEl s = ts_annual s) /\ (ts_EF s <= 0 -> ts_annual s = 0).
Proof.
  intros k fuel c d w w' s E. pose proof E as E0. apply run24_minutes in E. destruct E as (w0 & w1 & pre & rows & n & ws0 & ws & te & A1 & A2 & A3 & A4 & A5 & A6 & A7 & A8 & _ & _ & A9 & _ & A10 & A12 & A13 & A14 & A11).
  apply noDraw_mean in A14; [|cbn [test0 te_noDrawA te_noDraw INR]; num_simpl; lra].
  apply summarise_energy in A11. destruct A11 as (C1 & C2 & C3 & C4 & C5 & C6 & C7 & C8 & C9 & C10).
  apply C75_totals_fact in E0. destruct E0 as (_ & _ & _ & _ & _ & _ & _ & _ & _ & _ & _ & EL & _).
  exists w1, (map (shiftTime n) pre), rows, ws. split; [exact A1|]. split; [exact A4|]. split; [exact A8|].
  rewrite A12 in C1. rewrite (map_last tankT ws w1) in C1. rewrite <- (minutes_last _ _ _ _ _ _ _ _ A8) in C1.
  split; [exact C1|]. split; [exact C2|]. split; [exact C3|]. split; [|split; [exact C4|split; [|split; [|split]]]].
  - rewrite C10, C9. rewrite C8. destruct (te_noDraw te) as [|m] eqn:EN; [cbn [Nat.ltb Nat.leb INR]; unfold Rdiv; ring|].
    cbn [Nat.ltb Nat.leb]. rewrite A14. assert (0 < INR (S m)) by (apply lt_0_INR; lia). field. lra.
  - intros HM. rewrite C5. destruct (Rlt_dec _ _); [|lra]. field. lra.
  - intros HM. rewrite C5. destruct (Rlt_dec _ _); lra.
  - intros HU. rewrite C7, EL. clear -HU. destruct (Rlt_dec _ _) as [HH|HH]; [field; lra|contradiction].
  - intros HE. rewrite C6. clear -HE. destruct (Rlt_dec _ _) as [HH|HH]; [exfalso; lra|reflexivity].
Qed.
Lemma C77_no_adjustment_fact : forall k fuel d (w w' : hpwh R) s, run24hrTest k fuel conf_UEF d w = (Ok s, w') -> ts_adjusted s = ts_consumed s.
Proof.
  intros k fuel d w w' s E. apply C77_figures_fact in E. destruct E as (_ & _ & _ & _ & _ & _ & _ & _ & _ & _ & HA & _). rewrite HA.
  unfold conf_UEF, F_TO_C, dec. cbn [tc_amb]. unfold offsetF, FperC, dec. num_simpl. match goal with |- _ - (?a - ?b) * _ * _ = _ => replace (a - b) with 0 by field end. ring.
Qed.
Lemma C77_annual_refuted_fact : forall k fuel c d (w w' : hpwh R) s, run24hrTest k fuel c d w = (Ok s, w') -> 0 < ts_EF s -> 0 < ts_removed s ->
  ts_annual s * ts_EF s = 35 / 67 * (365 * waterHeat (ts_removed s) (67 * 5 / 9)) /\ ts_annual s * ts_EF s < 365 * waterHeat (ts_removed s) (67 * 5 / 9).
Proof.
  intros k fuel c d w w' s E HE HR. apply run24_minutes in E. destruct E as (w0 & w1 & pre & rows & n & ws0 & ws & te & A1 & A2 & A3 & A4 & A5 & A6 & A7 & A8 & _ & _ & A9 & _ & A10 & A12 & A13 & A14 & A11).
  apply summarise_energy in A11. destruct A11 as (C1 & C2 & C3 & C4 & C5 & C6 & C7 & C8 & C9 & C10). unfold waterHeat in *.
  assert (HA : ts_annual s * ts_EF s = 35 / 67 * (365 * (418 / 100 * (995 / 1000) * ts_removed s * (67 * 5 / 9)))) by (rewrite C6; clear -HE; destruct (Rlt_dec 0 (ts_EF s)) as [HH|HH]; [field; lra|contradiction]).
  split; [exact HA|]. rewrite HA. lra.
Qed.
Lemma C77_example_fact : exists s w', run24hrTest 1000 100 conf_UEF VerySmall (exUnit (T:=float) (map fofZ [50; 50; 50; 50]%Z)) = (Ok s, w') /\
  PrimFloat.ltb 1.5 (ts_EF s) = true /\ PrimFloat.ltb 2.5 (ts_recEff s) = true /\ PrimFloat.ltb 690000 (ts_annual s) = true /\ PrimFloat.ltb (ts_annual s) 700000 = true /\
  PrimFloat.ltb 1300000 (365 * (4.125 * ts_removed s * (67 * 5 / 9)) / ts_EF s)%float = true.
Proof.
  destruct (run24hrTest 1000 100 conf_UEF VerySmall (exUnit (T:=float) (map fofZ [50; 50; 50; 50]%Z))) as [o w'] eqn:E.
  assert (HS : match o with Ok s => PrimFloat.ltb 1.5 (ts_EF s) = true /\ PrimFloat.ltb 2.5 (ts_recEff s) = true /\ PrimFloat.ltb 690000 (ts_annual s) = true /\ PrimFloat.ltb (ts_annual s) 700000 = true /\
    PrimFloat.ltb 1300000 (365 * (4.125 * ts_removed s * (67 * 5 / 9)) / ts_EF s)%float = true | _ => False end).
  { change o with (fst (o, w')). rewrite <- E. clear E. vm_compute. auto 6. }
  destruct o as [s|?|?|]; try contradiction. exists s, w'. auto 7.
Qed.

(** ** C78 *)
(** the standby period after minute [t] - 1 *)
Definition standby (t : nat) (s : test (T:=R)) : Prop :=
  length (te_rows s) = t /\
  let sb := te_stby s in let rc := te_rec s in
  (sb_on sb = false /\ sb_ended sb = false /\ sb_start sb = 0 /\ sb_startT sb = 0 /\ sb_used sb = 0 /\ (rc_on rc = false -> t <= rc_end rc + 6)%nat) \/
  (rc_on rc = false /\ exists m, sb_on sb = true /\ sb_ended sb = false /\ sb_start sb = INR m /\ m = (rc_end rc + 6)%nat /\ (m < t <= m + 480)%nat /\
     sb_used sb = sumOver rowUsed (skipn (S m) (te_rows s))) \/
  (rc_on rc = false /\ exists m e, sb_on sb = false /\ sb_ended sb = true /\ sb_start sb = INR m /\ sb_end sb = INR e /\ m = (rc_end rc + 6)%nat /\
     (m <= e <= m + 479)%nat /\ (S e < t)%nat /\ sb_used sb = sumOver rowUsed (firstn (e - m) (skipn (S m) (te_rows s)))).
Lemma sumOver_app f a b : sumOver f (a ++ b) = sumOver f a + sumOver f b.
Proof. unfold sumOver. rewrite map_app. apply Rsum_app. Qed.
Lemma standby_minute fuel c initT t s (w w' : hpwh R) s' : standby t s -> minute24 fuel c initT t s w = (Ok s', w') -> standby (S t) s'.
Proof.
  intros (HL & HI) E. apply minute24_inv in E. destruct E as (row & E). destruct (takeDraw _) as [sc nd]. destruct E as (_ & HR & _ & ->).
  pose proof (ro_in _ _ _ _ _ _ HR) as HRi. unfold tally. cbv zeta. unfold standby. cbn [te_rows te_stby te_rec]. split; [rewrite app_length, HL; cbn; lia|]. cbv zeta in HI |- *.
  destruct HI as [(B1 & B2 & B3 & B4 & B5 & B6)|[(B0 & m & B1 & B2 & B3 & B4 & B5 & B6)|(B0 & m & e & B1 & B2 & B3 & B4 & B5 & B6 & B7 & B8)]].
  - destruct (rc_on (te_rec s)) eqn:EO.
    + left. split; [exact B1|]. split; [exact B2|]. split; [exact B3|]. split; [exact B4|]. split; [exact B5|].
      unfold addRecovery. cbn [o_drawing o_heating o_time]. destruct (_ && _)%bool; cbn [rc_on rc_end]; [lia|discriminate].
    + specialize (B6 eq_refl). unfold addStandby. rewrite B1, B2. cbn [negb andb o_time]. unfold nofN. num_simpl. rewrite <- !INR_IZR_INZ.
      destruct (Rltb (INR (rc_end (te_rec s)) + 5) (INR t)) eqn:B.
      * apply Rltb_true in B. assert (HT : (rc_end (te_rec s) + 5 < t)%nat). { apply INR_lt. rewrite plus_INR. replace (INR 5) with 5 by (rewrite INR_IZR_INZ; reflexivity). exact B. }
        right. left. split; [exact EO|]. exists t. cbn [sb_on sb_ended sb_start sb_used]. split; [reflexivity|]. split; [reflexivity|]. split; [reflexivity|]. split; [lia|]. split; [lia|].
        rewrite B5, skipn_all2 by (rewrite app_length; cbn; lia). reflexivity.
      * apply Rltb_false in B. assert (HT : (t <= rc_end (te_rec s) + 5)%nat). { apply INR_le. rewrite plus_INR. replace (INR 5) with 5 by (rewrite INR_IZR_INZ; reflexivity). exact B. }
        left. do 5 (split; [assumption|]). lia.
  - rewrite B0. right. unfold addStandby. rewrite B1. cbn [o_drawing o_heating o_time o_used]. unfold nofN. num_simpl. rewrite <- !INR_IZR_INZ.
    destruct (_ || _)%bool eqn:B.
    + right. split; [exact B0|]. exists m, (t - 1)%nat. cbn [sb_on sb_ended sb_start sb_end sb_used]. split; [reflexivity|]. split; [reflexivity|]. split; [exact B3|].
      split; [rewrite minus_INR by lia; cbn [INR]; lra|]. split; [exact B4|]. split; [lia|]. split; [lia|]. rewrite B6. f_equal.
      rewrite skipn_app, firstn_app, skipn_length, HL. replace (t - 1 - m - (t - S m))%nat with 0%nat by lia. rewrite firstn_O, app_nil_r, firstn_all2; auto. rewrite skipn_length. lia.
    + apply orb_false_iff in B. destruct B as [_ B]. apply Rleb_false in B. unfold min_per_hr in B. num_simpl. rewrite B3 in B.
      assert (HT : (t < m + 480)%nat). { apply INR_lt. rewrite plus_INR. replace (INR 480) with 480 by (rewrite INR_IZR_INZ; reflexivity). lra. }
      left. split; [exact B0|]. exists m. cbn [sb_on sb_ended sb_start sb_end sb_used]. split; [reflexivity|]. split; [exact B2|]. split; [exact B3|]. split; [exact B4|]. split; [lia|].
      rewrite skipn_app, HL. replace (S m - t)%nat with 0%nat by lia. rewrite sumOver_app, B6. unfold sumOver at 3, rowUsed at 3. cbn [skipn map]. rewrite rsum_cons, HRi. unfold Rsum at 3. cbn [fold_right]. lra.
  - rewrite B0. right. right. split; [exact B0|]. exists m, e. unfold addStandby. rewrite B1, B2. cbn [negb andb].
    do 6 (split; [assumption|]). split; [lia|]. rewrite B8. f_equal. rewrite skipn_app, firstn_app, skipn_length, HL. replace (e - m - (t - S m))%nat with 0%nat by lia. rewrite firstn_O, app_nil_r. reflexivity.
Qed.
Lemma summarise_standby d V initT pre te (s : summary (T:=R)) : summarise d V initT pre te = Ok s ->
  ts_stbyStartT s = sb_startT (te_stby te) /\ ts_stbyUsed s = sb_used (te_stby te) /\
  60 * ts_stbyDuration s = (if sb_ended (te_stby te) then sb_end (te_stby te) else 1440) - sb_start (te_stby te) - 1 /\
  ts_stbyLoss s = (if Rlt_dec 0 (ts_stbyDuration s) then if Rlt_dec 0 (ts_recEff s) then (ts_stbyUsed s - waterHeat V (ts_stbyEndT s - ts_stbyStartT s) / ts_recEff s) / ts_stbyDuration s else 0 else 0).
Proof.
  unfold summarise. cbv zeta. intros E.
  destruct (div_chk (to_outVT _) _) as [x|?|?|]; cbn [obind] in E; try discriminate.
  destruct (div_chk (to_inVT _) _) as [y|?|?|]; cbn [obind] in E; try discriminate. injection E as <-.
  cbn [ts_stbyStartT ts_stbyUsed ts_stbyDuration ts_stbyLoss ts_stbyEndT ts_recEff].
  unfold nofN, waterHeat, CPWATER, DENSITYWATER, min_per_hr, dec. num_simpl.
  set (eff := if Rltb 0 (rc_used (te_rec te)) then _ else _).
  split; [reflexivity|]. split; [reflexivity|]. split; [destruct (sb_ended (te_stby te)); lra|].
  assert (HB : forall (a : R) (u v : R), (if Rltb 0 a then u else v) = (if Rlt_dec 0 a then u else v)).
  { intros a u v. destruct (Rltb 0 a) eqn:B; [apply Rltb_true in B|apply Rltb_false in B]; destruct (Rlt_dec _ _); auto; lra. }
  rewrite <- !HB. match goal with |- (if (?a && ?b)%bool then _ else _) = _ => destruct a eqn:B1; [destruct b eqn:B2|] end; cbn [andb]; reflexivity.
Qed.
Lemma C78_standby_fact : forall k fuel c d (w w' : hpwh R) s, run24hrTest k fuel c d w = (Ok s, w') ->
  exists pre rows, ts_rows s = pre ++ rows /\ length rows = 1441%nat /\
  ((60 * ts_stbyDuration s = 1439 /\ ts_stbyStartT s = 0 /\ ts_stbyUsed s = 0) \/
   exists r m e, ts_recEnd s = INR r /\ m = (r + 6)%nat /\ (m <= e <= m + 479)%nat /\ (e <= 1440)%nat /\ 60 * ts_stbyDuration s = INR e - INR m - 1 /\
     ts_stbyUsed s = sumOver rowUsed (firstn (e - m) (skipn (S m) rows))) /\
  (0 < ts_stbyDuration s -> 0 < ts_recEff s -> ts_stbyLoss s * ts_stbyDuration s = ts_stbyUsed s - waterHeat (t_volume (w_tank w)) (ts_stbyEndT s - ts_stbyStartT s) / ts_recEff s).
Proof.
  intros k fuel c d w w' s E. apply run24_minutes in E. destruct E as (w0 & w1 & pre & rows & n & ws0 & ws & te & A1 & A2 & A3 & A4 & A5 & A6 & A7 & A8 & _ & _ & A9 & _ & A10 & A12 & A13 & A14 & A11).
  assert (HI : standby 0 (test0 d (tankT w1))).
  { split; [reflexivity|]. left. cbn [test0 te_stby te_rec sb_on sb_ended sb_start sb_startT sb_used rc_on]. num_simpl. do 5 (split; [reflexivity|]). discriminate. }
  pose proof (fold24 fuel c (tankT w1) standby (fun t s w w' s' => standby_minute fuel c (tankT w1) t s w w' s') 1441 0 _ _ _ _ HI A14) as HS. rewrite Nat.add_0_l in HS.
  assert (TR : te_rows te = rows).
  { apply loop24 in A14. destruct A14 as (rows' & ws' & R1 & R2 & _). cbn [test0 te_rows app] in R1.
    pose proof A11 as A11'. unfold summarise in A11'. cbv zeta in A11'.
    destruct (div_chk (to_outVT _) _) as [x|?|?|]; cbn [obind] in A11'; try discriminate. destruct (div_chk (to_inVT _) _) as [y|?|?|]; cbn [obind] in A11'; try discriminate. injection A11' as <-. cbn [ts_rows] in A1.
    apply app_inv_head in A1. exact A1. }
  destruct HS as (_ & HS). cbv zeta in HS. rewrite TR in HS.
  pose proof (summarise_recovery _ _ _ _ _ _ A11) as (C1 & _). pose proof (summarise_standby _ _ _ _ _ _ A11) as (D1 & D2 & D3 & D4).
  exists (map (shiftTime n) pre), rows. split; [exact A1|]. split; [exact A4|]. split.
  - destruct HS as [(B1 & B2 & B3 & B4 & B5 & B6)|[(B0 & m & B1 & B2 & B3 & B4 & B5 & B6)|(B0 & m & e & B1 & B2 & B3 & B4 & B5 & B6 & B7 & B8)]]; rewrite B2 in D3.
    + left. split; [lra|]. split; [congruence|congruence].
    + right. exists (rc_end (te_rec te)), m, 1440%nat. split; [exact C1|]. split; [exact B4|]. split; [lia|]. split; [lia|].
      split; [rewrite D3, B3; replace (INR 1440) with 1440 by (rewrite INR_IZR_INZ; reflexivity); lra|]. rewrite D2, B6. f_equal. rewrite firstn_all2; auto. rewrite skipn_length. lia.
    + right. exists (rc_end (te_rec te)), m, e. split; [exact C1|]. split; [exact B5|]. split; [lia|]. split; [lia|]. split; [rewrite D3, B3, B4; lra|congruence].
  - intros H1 H2. rewrite D4. destruct (Rlt_dec _ _); [|lra]. destruct (Rlt_dec _ _); [|lra]. field. lra.
Qed.
Lemma C78_draw_refuted_fact : exists s w' r, run24hrTest 1000 100 conf_UEF VerySmall (exUnit (T:=float) (map fofZ [50; 50; 50; 50]%Z)) = (Ok s, w') /\
  PrimFloat.eqb (ts_recEnd s) 100 = true /\ PrimFloat.eqb (60 * ts_stbyDuration s) (494 - 106 - 1)%float = true /\
  nth_error (ts_rows s) (60 + 480) = Some r /\ td_time r = 480%Z /\ PrimFloat.ltb 3.75 (td_draw r) = true.
Proof.
  destruct (run24hrTest 1000 100 conf_UEF VerySmall (exUnit (T:=float) (map fofZ [50; 50; 50; 50]%Z))) as [o w'] eqn:E.
  assert (HS : match o with Ok s => match nth_error (ts_rows s) (60 + 480) with Some r => PrimFloat.eqb (ts_recEnd s) 100 = true /\ PrimFloat.eqb (60 * ts_stbyDuration s) (494 - 106 - 1)%float = true /\
    td_time r = 480%Z /\ PrimFloat.ltb 3.75 (td_draw r) = true | None => False end | _ => False end).
  { change o with (fst (o, w')). rewrite <- E. clear E. vm_compute. auto 6. }
  destruct o as [s|?|?|]; try contradiction. destruct (nth_error (ts_rows s) (60 + 480)) as [r|] eqn:EN; [|contradiction]. exists s, w', r. tauto.
Qed.

(** ** C79 *)
Lemma step_noHS fuel x (w w' : hpwh R) : runOneStep fuel x w = (Ok tt, w') -> w_hs w = [] -> w_hs w' = [] /\ w_heating w' = false.
Proof.
  intros E HE. pose proof (step_nhs _ _ _ _ E) as HN. rewrite HE in HN. apply length_zero_iff_nil in HN. split; [exact HN|].
  apply step_hs in E. destruct E as (w1 & w2 & a & _ & _ & E1 & E2). rewrite HN in E1. symmetry in E1. apply map_eq_nil in E1. rewrite E2.
  unfold afterControl, allOff. rewrite E1. reflexivity.
Qed.
Lemma stepInlet_noHS fuel t x (w w' : hpwh R) : runOneStepInlet fuel t x w = (Ok tt, w') -> w_hs w = [] -> w_hs w' = [] /\ w_heating w' = false.
Proof.
  unfold runOneStepInlet. intros E HE. apply bind_inv in E. destruct E as ([] & w1 & E1 & E). apply modify_inv in E1. subst w1. apply (step_noHS _ _ _ _ E). exact HE.
Qed.
Lemma prep_noHS k fuel c flow : forall st dr (w : hpwh R), w_hs w = [] -> (st = 0%nat \/ (st = 1%nat /\ w_heating w = false)) -> forall r, fst (prepLoop k fuel c flow st dr w) <> Ok r.
Proof.
  induction k as [|k IH]; intros st dr w HE HS r; cbn [prepLoop]; [discriminate|].
  destruct (bind get _ w) as [o w'] eqn:E. cbn [fst]. intros ->. apply bind_inv in E. destruct E as (x0 & y0 & E0 & E). apply get_inv in E0. destruct E0 as [-> ->].
  destruct (prepAdvance st dr (w_heating w)) as [[st' dr'] done] eqn:EP.
  apply bind_inv in E. destruct E as ([] & w1 & E1 & E). apply stepInlet_noHS in E1; [|exact HE]. destruct E1 as [HE1 HH1].
  assert (HS' : done = false /\ (st' = 0%nat \/ (st' = 1%nat /\ w_heating w1 = false))).
  { destruct HS as [->|[-> HH]]; cbn [prepAdvance] in EP; [destruct (w_heating w)|rewrite HH in EP]; injection EP as <- <- <-; auto. }
  destruct HS' as [-> HS']. apply (IH st' dr' w1 HE1 HS' r). rewrite E. reflexivity.
Qed.
Lemma C79_never_ready_fact : forall k fuel c d (w : hpwh R), w_hs w = [] ->
  (forall r, fst (prepareForTest k fuel c w) <> Ok r) /\ (forall r, fst (findFirstHourRating k fuel w) <> Ok r) /\ (forall r, fst (run24hrTest k fuel c d w) <> Ok r).
Proof.
  intros k fuel c d w HE.
  assert (HP : forall c (w : hpwh R), w_hs w = [] -> forall r, fst (prepareForTest k fuel c w) <> Ok r).
  { clear. intros c w HE r. unfold prepareForTest, bind, get. apply prep_noHS; auto. }
  split; [apply HP; exact HE|]. split; intros r.
  - destruct (findFirstHourRating k fuel w) as [o w'] eqn:E. cbn [fst]. intros ->. destruct r as [d' v]. apply fhr_inv in E. destruct E as (_ & w1 & w2 & s & E1 & E2 & _).
    apply setTestSetpoint_tank in E1. destruct E1 as (_ & E1 & _). apply (HP conf_UEF w1) with (r := tt); [congruence|]. rewrite E2. reflexivity.
  - destruct (run24hrTest k fuel c d w) as [o w'] eqn:E. cbn [fst]. intros ->. unfold run24hrTest in E.
    apply bind_inv in E. destruct E as ([] & w1 & E1 & E). apply bind_inv in E. destruct E as ([] & w2 & E2 & _).
    apply setTestSetpoint_tank in E1. destruct E1 as (_ & E1 & _). apply (HP c w1) with (r := tt); [congruence|]. rewrite E2. reflexivity.
Qed.
Lemma C79_example_fact : exists w', prepareForTest 200 100 conf_UEF (set_w_storage true (set_w_compIx (-1) (set_w_hs [] (exUnit (T:=float) (map fofZ [50; 50; 50; 50]%Z))))) = (NoFuel, w') /\ w_hs w' = [].
Proof.
  destruct (prepareForTest 200 100 conf_UEF _) as [o w'] eqn:E.
  assert (HS : match o with NoFuel => True | _ => False end) by (change o with (fst (o, w')); rewrite <- E; clear E; vm_compute; exact I).
  assert (HW : match w_hs w' with [] => True | _ => False end) by (change w' with (snd (o, w')); rewrite <- E; clear E; vm_compute; exact I).
  destruct o; try contradiction. exists w'. split; [reflexivity|]. destruct (w_hs w'); [reflexivity|contradiction].
Qed.

(** ** C80 *)
Definition keepSet (w w' : hpwh R) : Prop := - (27315 / 100) < w_setpoint w -> w_setpoint w' = w_setpoint w.
Lemma keepSet_refl w : keepSet w w.
Proof. intros _. reflexivity. Qed.
Lemma keepSet_trans a b c : keepSet a b -> keepSet b c -> keepSet a c.
Proof. unfold keepSet. intros H1 H2 H. rewrite H2; [auto|]. rewrite H1; auto. Qed.
Lemma kframe_keepSet (w w' : hpwh R) : kframe true w w' -> keepSet w w'.
Proof. intros (_ & _ & _ & HK) _. auto. Qed.
Lemma addHeatParent_keepSet fuel i amb m : presOk keepSet (addHeatParent (T:=R) fuel i amb m).
Proof.
  intros w [] w' E. unfold addHeatParent in E. apply bind_inv in E. destruct E as (h & w1 & E1 & E). apply getHS_inv in E1. destruct E1 as [-> _].
  destruct (h_type h).
  2: { apply kframe_keepSet. pose proof (addHeatRes_kframe true fuel i m w) as HK. rewrite E in HK. exact HK. }
  - apply bind_inv in E. destruct E as (x0 & y0 & E0 & E). apply get_inv in E0. destruct E0 as [-> ->]. cbv zeta in E.
    apply bind_inv in E. destruct E as ([] & w2 & E2 & E). apply bind_inv in E. destruct E as ([] & w3 & E3 & E).
    assert (HK : w_setpoint w3 = w_setpoint w2). { pose proof (addHeatCond_kframe true fuel i amb m w2) as HK. rewrite E3 in HK. destruct HK as (_ & _ & _ & HK). exact (HK eq_refl). }
    intros HZ. destruct (_ && _)%bool.
    + apply when_inv in E. destruct E as [(_ & E)|(E0 & ->)].
      * destruct (setSetpointC_cases (w_setpoint w) w3) as [(mx & _ & E4)|(_ & HN & _)]; [rewrite E in E4; injection E4 as ->; reflexivity|]. exfalso. apply (HN tt). rewrite E. reflexivity.
      * exfalso. unfold absolute_zeroT, dec in E0. num_simpl. apply Rltb_false in E0. lra.
    + apply when_inv in E2. destruct E2 as [(E2 & _)|(_ & ->)]; [discriminate|].
      apply when_inv in E. destruct E as [(E0 & _)|(_ & ->)]; [|exact HK]. exfalso. unfold absolute_zeroT, dec in E0. num_simpl. apply Rltb_true in E0. lra.
Qed.

Lemma step_keepSet fuel x (w w' : hpwh R) : runOneStep fuel x w = (Ok tt, w') -> keepSet w w'.
Proof.
  intros E. apply step_keeps in E. destruct E as (w1 & w2 & a & E1 & E2 & E3 & _). apply preControl_setpoint in E1. destruct E1 as [E1 _].
  assert (HC : keepSet w1 w2).
  { refine (control_liftOk keepSet keepSet_refl keepSet_trans _ fuel (i_dr x) a (fun i m => addHeatParent_keepSet fuel i a m) w1 tt w2 E2).
    intros u v HO. apply kframe_keepSet. apply oframe_kframe. exact HO. }
  apply kframe_keepSet in E3. pose proof (keepSet_trans _ _ _ HC E3) as HK. unfold keepSet in *. rewrite <- E1. exact HK.
Qed.
Lemma C80_step_fact : forall fuel inlet x (w w' : hpwh R), runOneStepInlet fuel inlet x w = (Ok tt, w') -> - (27315 / 100) < w_setpoint w -> w_setpoint w' = w_setpoint w.
Proof.
  unfold runOneStepInlet. intros fuel inlet x w w' E HZ. apply bind_inv in E. destruct E as ([] & w1 & E1 & E). apply modify_inv in E1. subst w1. exact (step_keepSet _ _ _ _ E HZ).
Qed.
(** the setpoint of a test: 125 degrees Fahrenheit if the unit accepts it, else the highest it accepts,
    else what it was *)
Inductive testSet (w : hpwh R) : R -> Prop :=
| ts_doe mx : isNewSetpointPossible (465 / 9) U_C w = Ok (true, mx) -> testSet w (465 / 9)
| ts_max mx mx2 : isNewSetpointPossible (465 / 9) U_C w = Ok (false, mx) -> isNewSetpointPossible mx U_C w = Ok (true, mx2) -> testSet w mx2
| ts_kept mx mx2 : isNewSetpointPossible (465 / 9) U_C w = Ok (false, mx) -> isNewSetpointPossible mx U_C w = Ok (false, mx2) -> testSet w (w_setpoint w).
Lemma setTestSetpoint_set (w w' : hpwh R) : setTestSetpoint w = (Ok tt, w') -> testSet w (w_setpoint w').
Proof.
  unfold setTestSetpoint. intros E. assert (ET : testSetpoint = 465 / 9) by (unfold testSetpoint, F_TO_C, offsetF, FperC, dec; num_simpl; lra).
  assert (SP : forall v v', setSetpoint v U_C w = (Ok tt, v') -> w_setpoint v' = v).
  { intros v v' E1. unfold setSetpoint in E1. apply bind_inv in E1. destruct E1 as (x & w1 & E0 & E1). apply lift_inv in E0. destruct E0 as [-> E0]. injection E0 as <-.
    destruct (setSetpointC_cases v w) as [(mx & _ & E4)|(_ & HN & _)]; [rewrite E1 in E4; injection E4 as ->; reflexivity|]. exfalso. apply (HN tt). rewrite E1. reflexivity. }
  apply bind_inv in E. destruct E as (x0 & y0 & E0 & E). apply get_inv in E0. destruct E0 as [-> ->].
  apply bind_inv in E. destruct E as ([ok mx] & w1 & E1 & E). apply lift_inv in E1. destruct E1 as [-> E1]. rewrite ET in *. destruct ok.
  - rewrite (SP _ _ E). exact (ts_doe w mx E1).
  - apply bind_inv in E. destruct E as ([ok2 mx2] & w1 & E2 & E). apply lift_inv in E2. destruct E2 as [-> E2]. apply when_inv in E. destruct E as [(-> & E)|(-> & ->)].
    + rewrite (SP _ _ E). exact (ts_max w mx mx2 E1 E2).
    + exact (ts_kept w mx mx2 E1 E2).
Qed.
Lemma prep_keepSet k fuel c flow : forall st dr (w w' : hpwh R), prepLoop k fuel c flow st dr w = (Ok tt, w') -> keepSet w w'.
Proof.
  induction k as [|k IH]; intros st dr w w' E; cbn [prepLoop] in E; [discriminate|].
  apply bind_inv in E. destruct E as (x0 & y0 & E0 & E). apply get_inv in E0. destruct E0 as [-> ->]. destruct (prepAdvance st dr (w_heating w)) as [[st' dr'] done].
  apply bind_inv in E. destruct E as ([] & w1 & E1 & E). assert (K1 : keepSet w w1) by (intros HZ; exact (C80_step_fact _ _ _ _ _ E1 HZ)).
  destruct done; [apply ret_inv in E; destruct E as [-> _]; exact K1|]. exact (keepSet_trans _ _ _ K1 (IH _ _ _ _ E)).
Qed.
Lemma ran_keepSet fuel c w vs ws w' : ran fuel c w vs ws w' -> keepSet w w'.
Proof. induction 1 as [|w vs ws w1 v dr w2 H1 IH H2]; [apply keepSet_refl|]. apply (keepSet_trans _ _ _ IH). intros HZ. exact (C80_step_fact _ _ _ _ _ H2 HZ). Qed.
Lemma minutes_set fuel c o t w rows ws w' : minutes fuel c o t w rows ws w' -> - (27315 / 100) < w_setpoint w -> w_setpoint w' = w_setpoint w /\ Forall (fun r => td_setpoint r = w_setpoint w) rows.
Proof.
  induction 1 as [|t w v w1 r rows ws w' H1 H2 H3 IH]; intros HZ; [split; [reflexivity|apply Forall_nil]|]. pose proof (C80_step_fact _ _ _ _ _ H1 HZ) as HE.
  destruct IH as [I1 I2]; [rewrite HE; exact HZ|]. rewrite HE in *. split; [exact I1|]. constructor; [rewrite (ro_set _ _ _ _ _ _ H2); exact HE|exact I2].
Qed.
Lemma C80_rating_fact : forall k fuel (w w' : hpwh R) r, 0 < t_volume (w_tank w) -> findFirstHourRating k fuel w = (Ok r, w') -> exists sp, testSet w sp /\ (- (27315 / 100) < sp -> w_setpoint w' = sp).
Proof.
  intros k fuel w w' [d v] HV E. pose proof E as E'. apply fhr_inv in E. destruct E as (_ & w1 & w2 & s & E1 & E2 & E3 & ->). exists (w_setpoint w1). split; [exact (setTestSetpoint_set _ _ E1)|].
  unfold prepareForTest in E2. apply bind_inv in E2. destruct E2 as (x0 & y0 & E0 & E2). apply get_inv in E0. destruct E0 as [-> ->]. pose proof (prep_keepSet _ _ _ _ _ _ _ _ E2) as K2.
  assert (K3 : keepSet w2 w').
  { clear -E3. revert E3. generalize (mkfhr 0 0 0 0 0 0 (tankT w1) 0 true 1 true 0 0 false) as s0. revert w2. induction k as [|k IH]; intros w2 s0 E; cbn [fhrLoop] in E; [discriminate|].
    apply bind_inv in E. destruct E as (x0 & y0 & E0 & E). apply get_inv in E0. destruct E0 as [-> ->]. cbv zeta in E.
    apply bind_inv in E. destruct E as ([] & w3 & E1 & E). assert (K1 : keepSet w2 w3) by (intros HZ; exact (C80_step_fact _ _ _ _ _ E1 HZ)).
    apply bind_inv in E. destruct E as (x0 & y0 & E0 & E). apply get_inv in E0. destruct E0 as [-> ->].
    apply bind_inv in E. destruct E as (s1 & w4 & E2 & E). apply lift_inv in E2. destruct E2 as [-> E2].
    destruct (f_done _); [apply ret_inv in E; destruct E as [-> _]; exact K1|]. exact (keepSet_trans _ _ _ K1 (IH _ _ E)). }
  exact (keepSet_trans _ _ _ K2 K3).
Qed.
Lemma C80_test_fact : forall k fuel c d (w w' : hpwh R) s, run24hrTest k fuel c d w = (Ok s, w') ->
  exists sp, testSet w sp /\ (- (27315 / 100) < sp -> w_setpoint w' = sp /\ Forall (fun r => td_setpoint r = sp) (ts_rows s)).
Proof.
  intros k fuel c d w w' s E. pose proof E as E'. unfold run24hrTest in E'. apply bind_inv in E'. destruct E' as ([] & v1 & F1 & E'). apply bind_inv in E'. destruct E' as ([] & v2 & F2 & E').
  exists (w_setpoint v1). split; [exact (setTestSetpoint_set _ _ F1)|].
  unfold prepareForTest in F2. apply bind_inv in F2. destruct F2 as (x0 & y0 & E0 & F2). apply get_inv in E0. destruct E0 as [-> ->]. pose proof (prep_keepSet _ _ _ _ _ _ _ _ F2) as K2.
  apply bind_inv in E'. destruct E' as ([n pre] & v3 & F3 & E'). apply idle24 in F3. destruct F3 as (more & ws0 & A1 & _ & _ & A4 & _). cbn [app] in A1. subst more.
  apply bind_inv in E'. destruct E' as (x0 & y0 & E0 & E'). apply get_inv in E0. destruct E0 as [-> ->]. cbv zeta in E'.
  apply bind_inv in E'. destruct E' as (te & v4 & F4 & E'). apply loop24 in F4. destruct F4 as (rows & ws & B1 & _ & B3 & _). cbn [test0 te_rows app] in B1.
  apply bind_inv in E'. destruct E' as (x0 & y0 & E0 & E'). apply get_inv in E0. destruct E0 as [-> ->]. apply lift_inv in E'. destruct E' as [<- E'].
  intros HZ. specialize (K2 HZ). destruct (minutes_set _ _ _ _ _ _ _ _ A4) as [S1 S2]; [rewrite K2; exact HZ|]. destruct (minutes_set _ _ _ _ _ _ _ _ B3) as [T1 T2]; [rewrite S1, K2; exact HZ|].
  split; [congruence|]. unfold summarise in E'. cbv zeta in E'.
  destruct (div_chk (to_outVT _) _) as [x|?|?|]; cbn [obind] in E'; try discriminate. destruct (div_chk (to_inVT _) _) as [y|?|?|]; cbn [obind] in E'; try discriminate. injection E' as <-. cbn [ts_rows]. rewrite B1.
  apply Forall_app. split; apply Forall_forall; intros r Hr.
  - apply in_map_iff in Hr. destruct Hr as (r0 & <- & Hr). cbn [shiftTime td_setpoint]. rewrite Forall_forall in S2. rewrite (S2 _ Hr). congruence.
  - rewrite Forall_forall in T2. rewrite (T2 _ Hr). congruence.
Qed.
Lemma C80_example_fact : exists r w', findFirstHourRating 1000 100 (exUnit (T:=float) (map fofZ [50; 50; 50; 50]%Z)) = (Ok r, w') /\
  PrimFloat.eqb (w_setpoint (exUnit (T:=float) (map fofZ [50; 50; 50; 50]%Z))) 55 = true /\ PrimFloat.ltb 51.625 (w_setpoint w') = true /\ PrimFloat.ltb (w_setpoint w') 51.75 = true.
Proof.
  destruct (findFirstHourRating 1000 100 (exUnit (T:=float) (map fofZ [50; 50; 50; 50]%Z))) as [o w'] eqn:E.
  assert (HS : match o with Ok _ => True | _ => False end) by (change o with (fst (o, w')); rewrite <- E; clear E; vm_compute; exact I).
  assert (HW : PrimFloat.ltb 51.625 (w_setpoint w') = true /\ PrimFloat.ltb (w_setpoint w') 51.75 = true) by (change w' with (snd (o, w')); rewrite <- E; clear E; vm_compute; auto).
  destruct o as [r|?|?|]; try contradiction. exists r, w'. destruct HW. split; [reflexivity|]. split; [vm_compute; reflexivity|]. auto.
Qed.
