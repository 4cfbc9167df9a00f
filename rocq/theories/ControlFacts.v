(** Proofs of the theorems stated in PropsControl.v: Properties of the control of the heat sources: demand response, choice, idle steps, lock-outs, depression *)

From Coq Require Import ZArith List Bool Reals Lra Lia Floats.
From Verif Require Import Num FNum Base Units Utils Types TankM Logic HeatSrc Step Spec RList.
From Verif Require Import FrameProofs SimFrame ControlProofs ChoiceProofs SeqProofs Example.
Import ListNotations.
Local Open Scope R_scope.
(** ** Demand response *)

Lemma C25_full_lock_out_fact : forall (T : Type) (N : Num T) fuel (x : stepIn (T:=T)) (w w' : hpwh T),
  dr_has DR_LOC (i_dr x) = true -> dr_has DR_LOR (i_dr x) = true ->
  runOneStep fuel x w = (Ok tt, w') ->
  w_heating w' = false /\
  (forall i h, nth_error (w_hs w') i = Some h ->
     h_on h = false /\ h_runtime h = nofZ 0 /\ h_eOut h = nofZ 0 /\
     h_eIn h = match h_type h with
               | TResistance => nofZ 0
               | TCompressor => nadd (nofZ 0) (nmul (h_stbyPwr h) (ndiv (nsub (w_minStep w) (nofZ 0)) min_per_hr))
               end) /\
  (i_extra x = None -> w_doDepress w = false ->
     updateNodes fuel (w_hrStep w) (w_secStep w) (i_draw x) (w_inletT w) (i_amb x) (i_vol2 x) (i_inT2 x)
       (set_t_stby (nofZ 0) (set_t_outletT (nofZ 0) (w_tank w))) = (Ok tt, w_tank w')).
Proof.
  intros T N fuel x w w' H1 H2 E. destruct (step_locked_all _ _ _ _ E H1 H2) as [A B].
  split; [auto|split].
  - intros i h Ei. split; [rewrite Forall_forall in A; apply A; eapply nth_error_In; eauto|].
    eapply step_locked; eauto. destruct (h_type h); auto.
  - intros HX HD. pose proof (step_locked_tank _ _ _ _ E H1 H2 HX) as HT. rewrite HD in HT. exact HT.
Qed.
Lemma C25_example_fact : exists w', runOneStep (T:=float) 100 (exIn (fofZ 5) (fofZ 20) 3) (exUnit (map fofZ [20; 30; 45; 50]%Z)) = (Ok tt, w') /\
  match nth_error (w_hs w') 2 with Some h => shouldHeat w' h = Ok true | None => False end.
Proof. eexists; split; [vm_compute; reflexivity|vm_compute; reflexivity]. Qed.

Lemma C25_compressor_standby_only_fact : forall fuel (x : stepIn (T:=R)) (w w' : hpwh R),
  dr_has DR_LOC (i_dr x) = true -> runOneStep fuel x w = (Ok tt, w') ->
  forall i h, nth_error (w_hs w') i = Some h -> h_type h = TCompressor ->
    h_eIn h = h_stbyPwr h * w_minStep w / 60.
Proof.
  intros fuel x w w' H1 E i h Ei Et.
  assert (HD : shouldDRLockOut (h_type h) (i_dr x) = true) by (rewrite Et; exact H1).
  destruct (step_locked _ _ _ _ E i h Ei HD) as (_ & _ & E3). rewrite E3, Et.
  unfold min_per_hr, sec_per_min. num_simpl. field.
Qed.
Lemma C25_standby_example_fact : exists w',
  runOneStep (T:=float) 100 (exIn (fofZ 5) (fofZ 20) 3) (exUnit (map fofZ [20; 30; 45; 50]%Z)) = (Ok tt, w') /\
  match nth_error (w_hs w') 2 with Some h => PrimFloat.ltb PrimFloat.zero (h_eIn h) = true | None => False end.
Proof. eexists; split; [vm_compute; reflexivity|vm_compute; reflexivity]. Qed.

Lemma C26_compressor_lock_out_fact : forall (T : Type) (N : Num T) fuel (x : stepIn (T:=T)) (w w' : hpwh T),
  dr_has DR_LOC (i_dr x) = true -> runOneStep fuel x w = (Ok tt, w') ->
  forall i h, nth_error (w_hs w') i = Some h -> h_type h = TCompressor ->
    h_runtime h = nofZ 0 /\ h_eOut h = nofZ 0.
Proof.
  intros T N fuel x w w' H1 E i h Ei Et.
  assert (HD : shouldDRLockOut (h_type h) (i_dr x) = true) by (rewrite Et; exact H1).
  destruct (step_locked _ _ _ _ E i h Ei HD) as (A & B & _). auto.
Qed.
Lemma C26_example_fact : exists w', runOneStep (T:=float) 100 (exIn (fofZ 5) (fofZ 20) 1) (exUnit (map fofZ [20; 30; 45; 50]%Z)) = (Ok tt, w') /\
  map (fun h => PrimFloat.ltb PrimFloat.zero (h_eOut h)) (w_hs w') = [false; true; false] /\ map h_on (w_hs w') = [false; false; true].
Proof. eexists; split; [vm_compute; reflexivity|vm_compute; auto]. Qed.

Lemma C27_resistance_lock_out_fact : forall (T : Type) (N : Num T) fuel (x : stepIn (T:=T)) (w w' : hpwh T),
  dr_has DR_LOR (i_dr x) = true -> runOneStep fuel x w = (Ok tt, w') ->
  forall i h, nth_error (w_hs w') i = Some h -> h_type h = TResistance ->
    h_runtime h = nofZ 0 /\ h_eOut h = nofZ 0 /\ h_eIn h = nofZ 0.
Proof.
  intros T N fuel x w w' H1 E i h Ei Et.
  assert (HD : shouldDRLockOut (h_type h) (i_dr x) = true) by (rewrite Et; exact H1).
  destruct (step_locked _ _ _ _ E i h Ei HD) as (A & B & C). rewrite Et in C. auto.
Qed.
Lemma C27_example_fact : exists w', runOneStep (T:=float) 100 (exIn (fofZ 5) (fofZ 20) 2) (exUnit (map fofZ [20; 30; 45; 50]%Z)) = (Ok tt, w') /\
  map (fun h => PrimFloat.ltb PrimFloat.zero (h_eOut h)) (w_hs w') = [false; false; true].
Proof. eexists; split; [vm_compute; reflexivity|vm_compute; auto]. Qed.
Lemma C27_compressor_takes_over_refuted_fact :
  exists (w w' : hpwh float) (x : stepIn (T:=float)) h,
    dr_has DR_LOR (i_dr x) = true /\ dr_has DR_LOC (i_dr x) = false /\ runOneStep 100 x w = (Ok tt, w') /\ nth_error (w_hs w') 2 = Some h /\ h_type h = TCompressor /\ h_locked h = false /\ shouldHeat w' h = Ok true /\ h_on h = false /\ h_runtime h = fofZ 0 /\ w_heating w' = false.
Proof.
  eexists (exUnit (map fofZ [20; 20; 20; 25]%Z)), _, (exIn (fofZ 5) (fofZ 20) 2), _.
  split; [reflexivity|]. split; [reflexivity|]. split; [vm_compute; reflexivity|]. split; [reflexivity|].
  repeat (split; [vm_compute; reflexivity|]). vm_compute. reflexivity.
Qed.

(** ** Top-off *)

Lemma step_timer_eq : forall (T : Type) (N : Num T) fuel (x : stepIn (T:=T)) (w w' : hpwh T),
  runOneStep fuel x w = (Ok tt, w') ->
  w_timer w' = (let t := nadd (w_timer w) (w_minStep w) in
    if (dr_has DR_TOT (i_dr x) && nleb (w_timerLimit w) t)%bool then nofZ 0
    else if (negb (dr_has DR_TOO (i_dr x)) && negb (dr_has DR_TOT (i_dr x)))%bool then nofZ 0 else t) /\
  w_timerLimit w' = w_timerLimit w /\ w_minStep w' = w_minStep w.
Proof.
  intros T N fuel x w w' E. apply runOneStep_inv in E. destruct E as (w1 & w2 & w3 & a & HP & HC & HE & ->).
  assert (E1 : w_timer w1 = w_timer w /\ w_timerLimit w1 = w_timerLimit w /\ w_minStep w1 = w_minStep w)
    by (destruct HP as (l & t & sc & -> & _); auto).
  pose proof (pres_Ok _ _ _ _ _ (control_cframe fuel (i_dr x) a) HC) as (_ & _ & HF).
  assert (E2 : w_timer w2 = w_timer w1 /\ w_timerLimit w2 = w_timerLimit w1 /\ w_minStep w2 = w_minStep w1) by (rewrite HF; auto).
  apply stepExtra_frame in HE. destruct HE as (_ & _ & HE).
  assert (E3 : w_timer w3 = w_timer w2 /\ w_timerLimit w3 = w_timerLimit w2 /\ w_minStep w3 = w_minStep w2).
  { rewrite HE. unfold afterControl. destruct (allOff w2); auto. }
  set (v := stepSettle (stepDepress (i_amb x) w3)).
  assert (E4 : w_timer v = w_timer w3 /\ w_timerLimit v = w_timerLimit w3 /\ w_minStep v = w_minStep w3).
  { unfold v, stepDepress. destruct (w_doDepress w3); auto. }
  destruct E1 as (A1 & A2 & A3), E2 as (B1 & B2 & B3), E3 as (C1 & C2 & C3), E4 as (D1 & D2 & D3).
  assert (F1 : w_timer v = w_timer w) by congruence.
  assert (F2 : w_timerLimit v = w_timerLimit w) by congruence.
  assert (F3 : w_minStep v = w_minStep w) by congruence.
  clearbody v. rewrite <- F1, <- F2, <- F3.
  unfold stepTimer. cbv zeta. wsimpl.
  destruct (_ && _)%bool; [|destruct (_ && _)%bool]; auto.
Qed.

Lemma C28_timer_zero_without_top_off_fact : forall (T : Type) (N : Num T) fuel (x : stepIn (T:=T)) (w w' : hpwh T),
  dr_has DR_TOO (i_dr x) = false -> dr_has DR_TOT (i_dr x) = false ->
  runOneStep fuel x w = (Ok tt, w') -> w_timer w' = nofZ 0.
Proof.
  intros T N fuel x w w' H1 H2 E. apply step_timer_eq in E. destruct E as (E & _). rewrite E, H1, H2. reflexivity.
Qed.
Lemma C28_timer_below_limit_fact : forall fuel (x : stepIn (T:=R)) (w w' : hpwh R),
  dr_has DR_TOT (i_dr x) = true -> 0 < w_timerLimit w ->
  runOneStep fuel x w = (Ok tt, w') ->
  w_timer w' < w_timerLimit w' /\
  (w_timer w' = w_timer w + w_minStep w \/ (w_timer w' = 0 /\ w_timerLimit w <= w_timer w + w_minStep w)).
Proof.
  intros fuel x w w' H1 HL E. apply step_timer_eq in E. destruct E as (E & EL & _). rewrite EL, E, H1. cbn [andb negb].
  num_simpl. destruct (Rleb _ _) eqn:EB; bcase; [lra|]. rewrite andb_false_r. lra.
Qed.
Lemma C28_timer_counts_fact : forall fuel rows (w : hpwh R) ws w',
  runs fuel rows w ws w' ->
  Forall (fun r => dr_has DR_TOO (r_dr r) = true /\ dr_has DR_TOT (r_dr r) = false) rows ->
  w_timer w' = w_timer w + INR (length rows) * w_minStep w /\ w_minStep w' = w_minStep w.
Proof.
  intros fuel rows w ws w' HR. induction HR as [w|r rows w w1 ws w' E HR IH]; intros HF.
  - cbn. split; [lra|auto].
  - inversion HF as [|? ? (H1 & H2) HF']; subst. destruct (IH HF') as (E1 & E2).
    unfold runOneStepInlet, bind, modify in E. apply step_timer_eq in E.
    destruct E as (E3 & _ & E4). cbn in E3, E4. rewrite H1, H2 in E3. cbn in E3.
    rewrite E2, E1, E3, E4. change (length (r :: rows)) with (S (length rows)). rewrite S_INR. split; [lra|auto].
Qed.
Lemma C28_no_second_top_off_fact : forall (T : Type) (N : Num T) fuel (x : stepIn (T:=T)) dr' (w w' : hpwh T),
  neqb (w_timer w) (nofZ 0) = false ->
  dr_has DR_LOC dr' = dr_has DR_LOC (i_dr x) -> dr_has DR_LOR dr' = dr_has DR_LOR (i_dr x) ->
  dr_has DR_TOO dr' = false -> dr_has DR_TOT dr' = false ->
  runOneStep fuel x w = (Ok tt, w') ->
  exists v', runOneStep fuel (mkin (i_draw x) (i_amb x) (i_ext x) dr' (i_vol2 x) (i_inT2 x) (i_extra x)) w = (Ok tt, v') /\
    w' = set_w_timer (w_timer w') (set_w_prevDR (w_prevDR w') v').
Proof.
  intros T N fuel x dr' w w' HT H1 H2 H3 H4 E.
  pose proof E as Einv. apply runOneStep_inv in Einv. destruct Einv as (w1 & w2 & w3 & a & HP & HC & HE & Ew).
  apply runOneStep_inv0 in E. destruct E as (wa & wb & w1' & w2' & w3' & ta & ha & Emin & Ea & Eb & Ec & Ed & Ee & Ef).
  set (x' := mkin _ _ _ _ _ _ _).
  assert (Hc : control fuel dr' ha w1' = (Ok tt, w2')).
  { rewrite <- Ed. symmetry. apply control_timer_running; auto.
    apply onTank_inv in Eb. destruct Eb as (t' & _ & ->). apply updateSoC_inv in Ec. rewrite Ec.
    apply stepAmbient_inv in Ea. destruct Ea as (l & -> & _). exact HT. }
  exists (stepTimer dr' (stepSettle (stepDepress (i_amb x) w3'))).
  split.
  - unfold runOneStep. unfold bind at 1, get at 1. rewrite Emin.
    unfold bind at 1, modify at 1. change (stepAmbient x') with (stepAmbient x).
    unfold bind at 1. rewrite Ea. unfold bind at 1, get at 1.
    change (i_draw x') with (i_draw x). change (i_vol2 x') with (i_vol2 x). change (i_inT2 x') with (i_inT2 x).
    unfold bind at 1. rewrite Eb. unfold bind at 1. rewrite Ec. unfold bind at 1. change (i_dr x') with dr'. rewrite Hc.
    unfold bind at 1, modify at 1. change (stepExtra fuel x') with (stepExtra fuel x).
    unfold bind at 1. unfold afterControl in Ee. rewrite Ee. reflexivity.
  - rewrite Ef. generalize (stepSettle (stepDepress (i_amb x) w3')). intros v.
    unfold stepTimer. cbv zeta.
    destruct (dr_has DR_TOT (i_dr x) && _)%bool; [|destruct (negb _ && negb _)%bool];
      (destruct (dr_has DR_TOT dr' && _)%bool; [|destruct (negb _ && negb _)%bool]); reflexivity.
Qed.
Lemma C28_example_fact : exists w1 w2,
  runs (T:=float) 100 [mkrow (fofZ 10) (fofZ 5) (fofZ 20) (fofZ 20) 4; mkrow (fofZ 10) (fofZ 5) (fofZ 20) (fofZ 20) 4]%Z
    (exUnit (map fofZ [51; 52; 53; 54]%Z)) [w1; w2] w2 /\
  map h_on (w_hs w1) = [false; true; true] /\ w_timer w2 = fofZ 2.
Proof.
  eexists _, _. split; [|split].
  - econstructor; [vm_compute; reflexivity|]. econstructor; [vm_compute; reflexivity|]. constructor.
  - vm_compute. reflexivity.
  - vm_compute. reflexivity.
Qed.

(** ** When to heat *)

Lemma C51_should_heat_means_not_shut_off_fact : forall (T : Type) (N : Num T) (w : hpwh T) h,
  shouldHeat w h = Ok true ->
  shutsOff w h = Ok false /\ (exists b r, t_Ts (w_tank w) = b :: r /\ nleb (w_setpoint w) b = false).
Proof.
  intros T N w h E. unfold shouldHeat in E. destruct (wantsHeat w _ _) as [[]|e|e|]; cbn in E; try discriminate.
  destruct (shutsOff w h) as [s|e|e|] eqn:Es; cbn in E; try discriminate. inversion E as [E'].
  destruct s; [discriminate|]. split; [reflexivity|].
  unfold shutsOff in Es. destruct (t_Ts (w_tank w)) as [|b r]; [discriminate|]. exists b, r. split; [reflexivity|].
  destruct (nleb (w_setpoint w) b); [discriminate|reflexivity].
Qed.
Lemma C51_hot_tank_does_not_start_fact : forall (T : Type) (N : Num T) (w : hpwh T) b r h,
  t_Ts (w_tank w) = b :: r -> nleb (w_setpoint w) b = true ->
  shouldHeat w h <> Ok true /\ shutsOff w h = Ok true.
Proof.
  intros T N w b r h ET EL. split.
  - intros E. apply C51_should_heat_means_not_shut_off_fact in E. destruct E as (_ & b' & r' & E1 & E2).
    rewrite ET in E1. inversion E1; subst. congruence.
  - unfold shutsOff. rewrite ET, EL. reflexivity.
Qed.
Lemma C51_example_fact :
  match nth_error (w_hs (exUnit (T:=float) (map fofZ [20; 30; 45; 50]%Z))) 2 with
  | Some h => shouldHeat (exUnit (map fofZ [20; 30; 45; 50]%Z)) h = Ok true /\
              shutsOff (exUnit (map fofZ [55; 55; 56; 57]%Z)) h = Ok true
  | None => False end.
Proof. vm_compute. auto. Qed.

Lemma C52_idle_stays_idle_fact : forall (T : Type) (N : Num T) fuel (x : stepIn (T:=T)) (w w1 w' : hpwh T) amb,
  preControl fuel x w w1 amb ->
  Forall (fun h => h_on h = false) (w_hs w) -> w_heating w = false ->
  ((dr_has DR_TOO (i_dr x) || dr_has DR_TOT (i_dr x)) && neqb (w_timer w) (nofZ 0))%bool = false ->
  Forall (fun h => shouldHeat w1 h = Ok false) (w_hs w1) ->
  runOneStep fuel x w = (Ok tt, w') ->
  w_heating w' = false /\ (i_extra x = None -> w_tank w' = w_tank w1) /\
  Forall2 (fun h h' => h_on h' = false /\ h_runtime h' = nofZ 0 /\ h_eOut h' = nofZ 0 /\
      h_eIn h' = match h_type h with
                 | TResistance => nofZ 0
                 | TCompressor => nadd (nofZ 0) (nmul (h_stbyPwr h) (ndiv (nsub (w_minStep w) (nofZ 0)) min_per_hr))
                 end) (w_hs w) (w_hs w').
Proof. exact @step_idle. Qed.
Lemma C52_example_fact : exists w', runOneStep (T:=float) 100 (exIn (fofZ 1) (fofZ 20) 0) (exUnit (map fofZ [52; 53; 54; 55]%Z)) = (Ok tt, w') /\
  map h_on (w_hs w') = [false; false; false] /\ map h_runtime (w_hs w') = [fofZ 0; fofZ 0; fofZ 0].
Proof. eexists; split; [vm_compute; reflexivity|vm_compute; auto]. Qed.

(** ** Compressor lock-out by air temperature *)

Lemma maxedOut_oframe {T} `{Num T} (w w' : hpwh T) h h' : oframe w w' -> oframe_h h h' -> maxedOut w' h' = maxedOut w h.
Proof.
  intros HF HO. pose proof (oframe_view _ _ HF) as (E1 & E2 & _).
  assert (ES : shutsOff w' h' = shutsOff w h) by (apply shutsOff_oframe; auto).
  unfold maxedOut. rewrite ES, E1, E2. unfold oframe_h in HO. rewrite HO. reflexivity.
Qed.

(** the temperature must be this far outside (inside) the range to lock (unlock) *)
Definition lockMargin (h : hsrc R) : R := if h_on h then h_hyst h else 0.

Lemma C53_lock_decision_fact : forall i amb (w w' : hpwh R) h m b,
  nth_error (w_hs w) i = Some h -> h_type h = TCompressor -> 0 <= h_hyst h -> maxedOut w h = Ok m ->
  toLockOrUnlock i amb w = (Ok b, w') ->
  (exists h', nth_error (w_hs w') i = Some h' /\ h' = set_h_locked b h) /\
  (m = true -> b = true) /\
  (amb < h_minT h - lockMargin h - tolT \/ h_maxT h + lockMargin h + tolT < amb -> b = true) /\
  (m = false -> h_minT h + lockMargin h + tolT < amb -> amb < h_maxT h - lockMargin h - tolT -> b = false) /\
  (m = false -> h_minT h - lockMargin h - tolT <= amb <= h_maxT h + lockMargin h + tolT ->
     amb <= h_minT h + lockMargin h + tolT \/ h_maxT h - lockMargin h - tolT <= amb -> b = h_locked h).
Proof.
  intros i amb w w' h m b Ei Et Hh Em E. unfold toLockOrUnlock in E.
  apply bind_inv in E. destruct E as (lk & w0 & E0 & E). apply askHS_inv in E0.
  destruct E0 as [-> (h0 & Eh0 & Elk)]. rewrite Ei in Eh0. inversion Eh0; subst h0; clear Eh0.
  apply bind_inv in E. destruct E as ([] & w1 & E1 & E).
  assert (HF1 : oframe w w1).
  { eapply pres_Ok; [|exact E1]. apply (pres_when oframe oframe_refl). apply modHS_oframe. apply set_locked_oframe. }
  destruct (oframe_hs _ _ _ _ HF1 Ei) as (h1 & Ei1 & F1).
  assert (Eh1 : h1 = set_h_locked (lk || h_locked h) h).
  { destruct lk; cbn [when] in E1.
    - apply modify_inv in E1. subst w1. cbn in Ei1. rewrite (nth_updHS_same _ _ _ _ Ei) in Ei1. inversion Ei1. reflexivity.
    - apply ret_inv in E1. destruct E1 as [-> _]. rewrite Ei in Ei1. inversion Ei1; subst. destruct h1; reflexivity. }
  apply bind_inv in E. destruct E as (ul & w2 & E2 & E). apply askHS_inv in E2.
  destruct E2 as [-> (h2 & Eh2 & Eul)]. rewrite Ei1 in Eh2. inversion Eh2; subst h2; clear Eh2.
  apply bind_inv in E. destruct E as ([] & w3 & E3 & E).
  apply bind_inv in E. destruct E as (h3 & w4 & E4 & E). apply getHS_inv in E4. destruct E4 as [-> E4].
  apply ret_inv in E. destruct E as [-> Eb].
  assert (Eh3 : h3 = set_h_locked (negb ul && h_locked h1) h1).
  { destruct ul; cbn [when] in E3.
    - apply modify_inv in E3. subst w3. cbn in E4. rewrite (nth_updHS_same _ _ _ _ Ei1) in E4. inversion E4. reflexivity.
    - apply ret_inv in E3. destruct E3 as [-> _]. rewrite Ei1 in E4. inversion E4; subst. destruct h; reflexivity. }
  assert (Em1 : maxedOut w1 h1 = Ok m) by (rewrite (maxedOut_oframe _ _ _ _ HF1 F1); auto).
  unfold shouldLockOut in Elk. rewrite Em in Elk. cbn [obind] in Elk.
  unfold shouldUnlock in Eul. rewrite Em1 in Eul. cbn [obind] in Eul.
  assert (Hb : b = (negb ul && (lk || h_locked h))%bool).
  { rewrite <- Eb, Eh3, Eh1. destruct h; reflexivity. }
  assert (Hl1 : h_locked h1 = (lk || h_locked h)%bool) by (rewrite Eh1; destruct h; reflexivity).
  assert (Hau : airUnlocks h1 amb = airUnlocks h amb) by (rewrite Eh1; destruct h; reflexivity).
  rewrite Hl1, Hau in Eul.
  split.
  { exists h3. split; [exact E4|]. rewrite Eh3, Hl1, <- Hb, Eh1. destruct h; reflexivity. }
  assert (Elk' : lk = (h_locked h || airLocks h amb || m)%bool).
  { destruct (h_locked h); inversion Elk; auto. }
  assert (Eul' : ul = (negb (lk || h_locked h) || (negb m && airUnlocks h amb))%bool).
  { destruct (lk || h_locked h)%bool; cbn in *; inversion Eul; auto. destruct m; auto. }
  assert (Hb' : b = ((h_locked h || airLocks h amb || m) && (m || negb (airUnlocks h amb)))%bool).
  { rewrite Hb, Eul', Elk'. destruct (h_locked h), (airLocks h amb), m, (airUnlocks h amb); reflexivity. }
  clear - Hb' Hh. subst b.
  assert (Ht : 0 < (tolT : R)) by (unfold tolT, dec; num_simpl; lra).
  unfold lockMargin.
  assert (HL : airLocks h amb = true <-> (amb < h_minT h - lockMargin h - tolT \/ h_maxT h + lockMargin h + tolT < amb)).
  { unfold airLocks, lockMargin. destruct (h_on h); num_simpl; unfold Rltb; rewrite orb_true_iff;
      repeat destruct (Rlt_dec _ _); split; intuition (try lra; try discriminate). }
  assert (HU : airUnlocks h amb = true <-> (h_minT h + lockMargin h + tolT < amb /\ amb < h_maxT h - lockMargin h - tolT)).
  { unfold airUnlocks, lockMargin. destruct (h_on h); num_simpl; unfold Rltb; rewrite andb_true_iff;
      repeat destruct (Rlt_dec _ _); split; intuition (try lra; try discriminate). }
  assert (HM : 0 <= lockMargin h) by (unfold lockMargin; destruct (h_on h); lra).
  fold (lockMargin h).
  splits.
  - intros ->. cbn. rewrite orb_true_r. reflexivity.
  - intros HA. assert (EA : airLocks h amb = true) by (apply HL; auto). rewrite EA.
    assert (EU : airUnlocks h amb = false).
    { destruct (airUnlocks h amb); auto. assert (true = true) by auto. apply HU in H. lra. }
    rewrite EU. cbn. rewrite !orb_true_r. reflexivity.
  - intros -> A B. assert (EU : airUnlocks h amb = true) by (apply HU; auto). rewrite EU. cbn. apply andb_false_r.
  - intros -> A B.
    assert (EA : airLocks h amb = false).
    { destruct (airLocks h amb); auto. assert (HH : true = true) by auto. apply HL in HH. lra. }
    assert (EU : airUnlocks h amb = false).
    { destruct (airUnlocks h amb); auto. assert (HH : true = true) by auto. apply HU in HH. lra. }
    rewrite EA, EU. cbn. rewrite orb_false_r, andb_true_r. auto using orb_false_r.
Qed.

Lemma C53_no_oscillation_fact : forall i j amb (w v w' v' : hpwh R) h g b c,
  nth_error (w_hs w) i = Some h -> h_type h = TCompressor -> 0 <= h_hyst h -> maxedOut w h = Ok false ->
  toLockOrUnlock i amb w = (Ok b, w') -> b <> h_locked h ->
  nth_error (w_hs v) j = Some g -> h_type g = TCompressor -> maxedOut v g = Ok false ->
  h_minT g = h_minT h -> h_maxT g = h_maxT h -> h_hyst g = h_hyst h -> h_locked g = b ->
  toLockOrUnlock j amb v = (Ok c, v') -> c = b.
Proof.
  intros i j amb w v w' v' h g b c E1 E2 Hh Em E Hb F1 F2 Fm Gm GM Gh Gl F.
  destruct (C53_lock_decision_fact i amb w w' h false b E1 E2 Hh Em E) as (_ & _ & A1 & A2 & A3).
  assert (Hg : 0 <= h_hyst g) by (rewrite Gh; auto).
  destruct (C53_lock_decision_fact j amb v v' g false c F1 F2 Hg Fm F) as (_ & _ & B1 & B2 & B3).
  assert (Ht : 0 < (tolT : R)) by (unfold tolT, dec; num_simpl; lra).
  assert (HM : 0 <= lockMargin h) by (unfold lockMargin; destruct (h_on h); lra).
  assert (HG : 0 <= lockMargin g) by (unfold lockMargin; destruct (h_on g); lra).
  rewrite Gm, GM, Gl in *.
  destruct (Rlt_dec amb (h_minT h - lockMargin h - tolT)) as [c1|c1];
  [|destruct (Rlt_dec (h_maxT h + lockMargin h + tolT) amb) as [c2|c2]].
  - assert (Hb1 : b = true) by (apply A1; auto). rewrite Hb1.
    destruct (Rlt_dec amb (h_minT h - lockMargin g - tolT)); [apply B1; auto|].
    destruct (Rlt_dec (h_maxT h + lockMargin g + tolT) amb); [apply B1; auto|].
    rewrite <- Hb1. apply B3; auto; lra.
  - assert (Hb1 : b = true) by (apply A1; auto). rewrite Hb1.
    destruct (Rlt_dec amb (h_minT h - lockMargin g - tolT)); [apply B1; auto|].
    destruct (Rlt_dec (h_maxT h + lockMargin g + tolT) amb); [apply B1; auto|].
    rewrite <- Hb1. apply B3; auto; lra.
  - destruct (Rlt_dec (h_minT h + lockMargin h + tolT) amb) as [c3|c3].
    + destruct (Rlt_dec amb (h_maxT h - lockMargin h - tolT)) as [c4|c4].
      * assert (Hb1 : b = false) by (apply A2; auto). rewrite Hb1 in *.
        destruct (Rlt_dec (h_minT h + lockMargin g + tolT) amb) as [c5|c5].
        -- destruct (Rlt_dec amb (h_maxT h - lockMargin g - tolT)) as [c6|c6]; [apply B2; auto|].
           apply B3; auto; lra.
        -- apply B3; auto; lra.
      * exfalso. apply Hb. apply A3; auto; lra.
    + exfalso. apply Hb. apply A3; auto; lra.
Qed.
Lemma C53_example_fact : let u := exUnit (T:=R) [20; 30; 45; 50] in
  exists h, nth_error (w_hs u) 2 = Some h /\ h_type h = TCompressor /\ 0 <= h_hyst h /\ maxedOut u h = Ok false.
Proof.
  eexists. split; [reflexivity|]. cbn [h_type h_hyst exHS]. split; [reflexivity|]. split.
  - num_simpl. lra.
  - unfold maxedOut. cbn [h_type exHS h_maxSet w_setpoint exUnit]. num_simpl. unfold Rltb. destruct (Rlt_dec _ _); [lra|reflexivity].
Qed.
Lemma C53_run_fact : exists w1 w2,
  toLockOrUnlock (T:=float) 2 (fofZ 0) (exUnit (map fofZ [20; 30; 45; 50]%Z)) = (Ok true, w1) /\
  toLockOrUnlock 2 (fofZ 3) w1 = (Ok false, w2).
Proof. eexists _, _. split; [vm_compute; reflexivity|]. vm_compute. reflexivity. Qed.

(** ** Temperature depression *)

(** the temperature the location settles at *)
Definition depGoal (amb : R) (w' : hpwh R) : R :=
  if existsb (fun h => h_on h && negb (h_locked h) && h_depresses h)%bool (w_hs w') then amb - w_maxDep w' else amb.

Lemma C54_depression_step_fact : forall fuel (x : stepIn (T:=R)) (w w' : hpwh R),
  w_doDepress w = true -> runOneStep fuel x w = (Ok tt, w') ->
  let before := if Req_EM_T (w_locT w) UNINITIALIZED_LOCATIONTEMP then i_amb x else w_locT w in
  let goal := depGoal (i_amb x) w' in
  w_locT w' - goal = 9289 / 10000 * (before - goal) /\
  Rmin before goal <= w_locT w' <= Rmax before goal /\
  w_doDepress w' = true /\ w_maxDep w' = w_maxDep w.
Proof.
  intros fuel x w w' HD E. cbv zeta.
  apply runOneStep_inv in E. destruct E as (w1 & w2 & w3 & a & HP & HC & HE & ->).
  destruct HP as (l & t & sc & E1 & El & _ & _ & _ & _). rewrite HD in El.
  assert (A1 : w_locT w1 = l /\ w_doDepress w1 = true /\ w_maxDep w1 = w_maxDep w) by (subst w1; auto).
  pose proof (pres_Ok _ _ _ _ _ (control_cframe fuel (i_dr x) a) HC) as (_ & _ & HF).
  assert (A2 : w_locT w2 = w_locT w1 /\ w_doDepress w2 = w_doDepress w1 /\ w_maxDep w2 = w_maxDep w1) by (rewrite HF; auto).
  apply stepExtra_frame in HE. destruct HE as (_ & _ & HE).
  assert (A3 : w_locT w3 = w_locT w2 /\ w_doDepress w3 = w_doDepress w2 /\ w_maxDep w3 = w_maxDep w2).
  { rewrite HE. unfold afterControl. destruct (allOff w2); auto. }
  destruct A1 as (B1 & B2 & B3), A2 as (C1 & C2 & C3), A3 as (D1 & D2 & D3).
  assert (F1 : w_locT w3 = l) by congruence. assert (F2 : w_doDepress w3 = true) by congruence.
  assert (F3 : w_maxDep w3 = w_maxDep w) by congruence.
  set (w' := stepTimer _ _).
  assert (G : w_locT w' = w_locT (stepDepress (i_amb x) w3) /\ w_maxDep w' = w_maxDep w3 /\ w_doDepress w' = w_doDepress w3 /\
              w_hs w' = map (settleHS (w_minStep w3)) (w_hs w3)).
  { unfold w', stepTimer, stepDepress. rewrite F2. destruct (_ && _)%bool; [|destruct (_ && _)%bool]; auto. }
  destruct G as (G1 & G2 & G3 & G4). clearbody w'. unfold depGoal. rewrite G1, G2, G3, G4, F3, F2.
  assert (Hex : existsb (fun h => h_on h && negb (h_locked h) && h_depresses h)%bool (map (settleHS (w_minStep w3)) (w_hs w3))
              = existsb (fun h => h_on h && negb (h_locked h) && h_depresses h)%bool (w_hs w3)).
  { generalize (w_hs w3). induction l0 as [|h hs IH]; cbn; auto. rewrite IH. f_equal.
    unfold settleHS. destruct (h_type h); reflexivity. }
  rewrite Hex. clear Hex G4.
  assert (HL : w_locT (stepDepress (i_amb x) w3) =
    l - (l - (if existsb (fun h => h_on h && negb (h_locked h) && h_depresses h)%bool (w_hs w3) then i_amb x - w_maxDep w else i_amb x)) * (1 - 9289 / 10000)).
  { unfold stepDepress. rewrite F2. wsimpl. rewrite F1, F3. num_simpl. destruct (existsb _ _); reflexivity. }
  assert (Hl : l = if Req_EM_T (w_locT w) UNINITIALIZED_LOCATIONTEMP then i_amb x else w_locT w).
  { rewrite El. num_simpl. unfold Reqb'. destruct (Req_EM_T _ _); reflexivity. }
  rewrite <- Hl, HL. set (g := if existsb _ _ then _ else _). clearbody g.
  splits; auto; try lra.
  - unfold Rmin. destruct (Rle_dec l g); lra.
  - unfold Rmax. destruct (Rle_dec l g); lra.
Qed.

Lemma C54_depression_bounded_fact : forall fuel rows (w : hpwh R) ws w' lo hi,
  runs fuel rows w ws w' -> w_doDepress w = true -> 0 <= w_maxDep w ->
  lo <= w_locT w <= hi -> Forall (fun r => lo + w_maxDep w <= r_amb r <= hi) rows ->
  Forall (fun v => lo <= w_locT v <= hi) ws /\ lo <= w_locT w' <= hi.
Proof.
  intros fuel rows w ws w' lo hi HR. induction HR as [w|r rows w w1 ws w' E HR IH]; intros HD HM HB HF; [split; auto|].
  inversion HF as [|? ? Hr HF']; subst. unfold runOneStepInlet, bind, modify in E.
  destruct (C54_depression_step_fact _ _ _ _ (HD : w_doDepress (setInletT (r_inletT r) w) = true) E) as (_ & HL & HD1 & HM1).
  cbn in HL, HM1. set (bf := if Req_EM_T _ _ then _ else _) in HL.
  assert (Hbf : lo <= bf <= hi) by (unfold bf; destruct (Req_EM_T _ _); lra).
  assert (Hg : lo <= depGoal (r_amb r) w1 <= hi) by (unfold depGoal; destruct (existsb _ _); rewrite ?HM1; lra).
  assert (H1 : lo <= w_locT w1 <= hi).
  { revert HL. unfold Rmin, Rmax. destruct (Rle_dec bf (depGoal (r_amb r) w1)); lra. }
  destruct IH as [IH1 IH2]; auto; try (rewrite HM1; auto).
Qed.

Lemma C54_depression_converges_fact : forall fuel rows (w : hpwh R) ws w' amb goal,
  runs fuel rows w ws w' -> w_doDepress w = true ->
  UNINITIALIZED_LOCATIONTEMP < w_locT w -> UNINITIALIZED_LOCATIONTEMP < goal ->
  Forall (fun r => r_amb r = amb) rows -> Forall (fun v => depGoal amb v = goal) ws ->
  w_locT w' - goal = (9289 / 10000) ^ length rows * (w_locT w - goal).
Proof.
  intros fuel rows w ws w' amb goal HR. induction HR as [w|r rows w w1 ws w' E HR IH]; intros HD HU HG HF HW; [cbn; lra|].
  inversion HF as [|? ? Hr HF']; subst. inversion HW as [|? ? Hw HW']; subst. unfold runOneStepInlet, bind, modify in E.
  destruct (C54_depression_step_fact _ _ _ _ (HD : w_doDepress (setInletT (r_inletT r) w) = true) E) as (HQ & HL & HD1 & _).
  cbn [setInletT set_w_haveInletT set_w_inletT w_locT row_step i_amb] in HQ, HL. destruct (Req_EM_T _ _) as [e|_]; [lra|].
  rewrite IH; auto.
  - cbn [length pow]. rewrite HQ. lra.
  - revert HL. unfold Rmin. destruct (Rle_dec _ _); lra.
Qed.
Definition exDep (T : Type) (N : Num T) (Ts : list T) : hpwh T := set_w_locT (nofZ 20) (set_w_doDepress true (exUnit Ts)).
Lemma C54_example_fact : exists w1,
  runs (T:=float) 100 [mkrow (fofZ 10) (fofZ 5) (fofZ 20) (fofZ 20) 0]%Z (exDep float FNum (map fofZ [20; 30; 45; 50]%Z)) [w1] w1 /\
  w_doDepress (exDep float FNum (map fofZ [20; 30; 45; 50]%Z)) = true /\
  PrimFloat.ltb (w_locT w1) (fofZ 20) = true.
Proof.
  eexists. split; [|split].
  - econstructor; [vm_compute; reflexivity|]. constructor.
  - reflexivity.
  - vm_compute. reflexivity.
Qed.

(** ** Reported energies *)

Lemma C55_energy_removed_from_environment_fact : forall fuel (x : stepIn (T:=R)) (w w' : hpwh R),
  runOneStep fuel x w = (Ok tt, w') ->
  w_envE w' = Rsum (map (fun h => h_eOut h - h_eIn h) (w_hs w')) /\
  KWH_TO_KJ (w_stbyE w') = t_stby (w_tank w').
Proof.
  intros fuel x w w' E. apply runOneStep_inv in E. destruct E as (w1 & w2 & w3 & a & HP & HC & HE & ->).
  assert (A1 : w_envE w1 = 0) by (destruct HP as (l & t & sc & -> & _); reflexivity).
  pose proof (pres_Ok _ _ _ _ _ (control_cframe fuel (i_dr x) a) HC) as (_ & _ & HF).
  assert (A2 : w_envE w2 = 0) by (rewrite HF; exact A1).
  apply stepExtra_frame in HE. destruct HE as (_ & _ & HE).
  assert (A3 : w_envE w3 = 0) by (rewrite HE; unfold afterControl; destruct (allOff w2); exact A2).
  assert (A4 : w_envE (stepDepress (i_amb x) w3) = 0) by (unfold stepDepress; destruct (w_doDepress w3); exact A3).
  set (v := stepDepress (i_amb x) w3) in *. clearbody v.
  assert (HS : forall hs acc, fold_left (fun acc (h : hsrc R) => nadd acc (nsub (h_eOut h) (h_eIn h))) hs acc = acc + Rsum (map (fun h => h_eOut h - h_eIn h) hs)).
  { induction hs; intros acc; unfold Rsum; cbn [fold_left map fold_right]; [lra|]. rewrite IHhs. num_simpl. unfold Rsum. lra. }
  assert (G : w_envE (stepTimer (i_dr x) (stepSettle v)) = w_envE (stepSettle v) /\ w_hs (stepTimer (i_dr x) (stepSettle v)) = w_hs (stepSettle v)
     /\ w_stbyE (stepTimer (i_dr x) (stepSettle v)) = w_stbyE (stepSettle v) /\ w_tank (stepTimer (i_dr x) (stepSettle v)) = w_tank (stepSettle v)).
  { generalize (stepSettle v). intros u. unfold stepTimer. destruct (_ && _)%bool; [|destruct (_ && _)%bool]; auto. }
  destruct G as (-> & -> & -> & ->). split.
  - rewrite stepSettle_hs. unfold stepSettle. wsimpl. rewrite HS, A4. lra.
  - unfold stepSettle. wsimpl. unfold KWH_TO_KJ, KJ_TO_KWH, sec_per_hr, min_per_hr, sec_per_min. num_simpl. field; lra.
Qed.
Lemma C55_example_fact : exists w', runOneStep (T:=float) 100 (exIn (fofZ 5) (fofZ 20) 0) (exUnit (map fofZ [20; 30; 45; 50]%Z)) = (Ok tt, w') /\
  PrimFloat.ltb PrimFloat.zero (w_envE w') = true.
Proof. eexists; split; [vm_compute; reflexivity|vm_compute; reflexivity]. Qed.

(** ** Choice of the heat source *)

(** exactly source i is on *)
Definition onlyOn {T : Type} (i : nat) (w : hpwh T) : Prop :=
  forall j h, nth_error (w_hs w) j = Some h -> h_on h = Nat.eqb j i.

Lemma C71_first_come_fact : forall (T : Type) (N : Num T) dr i (w : hpwh T) h,
  Forall (fun h => h_on h = false) (w_hs w) -> w_heating w = false -> Forall (fun h => h_vip h = false) (w_hs w) ->
  nth_error (w_hs w) i = Some h -> h_companion h = None -> shouldHeat w h = Ok true ->
  (forall j hj, (j < i)%nat -> nth_error (w_hs w) j = Some hj -> shouldHeat w hj = Ok false) ->
  exists w', chooseLoop dr w = (Ok tt, w') /\ w_heating w' = true /\ onlyOn i w' /\
    w' = set_w_heating true (set_w_hs (w_hs w') w) /\
    Forall2 (fun h h' => h' = set_h_on (h_on h') h) (w_hs w) (w_hs w').
Proof.
  intros T N dr i w h HA Hh HV E EC HS HB.
  destruct (chooseLoop_first dr i w h HA Hh HV E EC HS HB) as [E1 E2].
  exists (turnOn i w). splits; auto. unfold turnOn. wsimpl. apply updHS_F2; intros []; reflexivity.
Qed.
Lemma C71_vip_takes_over_fact : forall (T : Type) (N : Num T) dr i (w w' : hpwh T) h,
  w_heating w = true \/ Forall (fun h => h_on h = false) (w_hs w) ->
  nth_error (w_hs w) i = Some h -> h_vip h = true -> h_companion h = None ->
  (forall j hj, j <> i -> nth_error (w_hs w) j = Some hj -> h_vip hj = false) ->
  shouldHeat w h = Ok true -> shouldDRLockOut (h_type h) dr = false ->
  chooseLoop dr w = (Ok tt, w') -> w_heating w' = true /\ onlyOn i w'.
Proof.
  intros T N dr i w w' h HC E Ev Ec HV HS HD EL.
  destruct (chooseLoop_vip dr i w w' h HC E Ev Ec HV HS HD EL) as (A & B & _). auto.
Qed.
Lemma C71_example_fact : let u := exUnit (T:=float) (map fofZ [20; 20; 20; 25]%Z) in
  exists h w', nth_error (w_hs u) 0 = Some h /\ h_vip h = true /\ shouldHeat u h = Ok true /\
    chooseLoop 0 u = (Ok tt, w') /\ map h_on (w_hs w') = [true; false; false].
Proof. eexists _, _. split; [reflexivity|]. split; [reflexivity|]. split; [vm_compute; reflexivity|]. split; [vm_compute; reflexivity|vm_compute; reflexivity]. Qed.
Lemma C71_first_example_fact : let u := set_w_hs (map (set_h_vip false) exSources) (exUnit (T:=float) (map fofZ [20; 30; 45; 50]%Z)) in
  map (shouldHeat u) (w_hs u) = [Ok false; Ok false; Ok true] /\
  exists w', chooseLoop 0 u = (Ok tt, w') /\ map h_on (w_hs w') = [false; false; true].
Proof. split; [vm_compute; reflexivity|]. eexists. split; [vm_compute; reflexivity|vm_compute; reflexivity]. Qed.
