(** What a step keeps (setpoint, outlet temperature) and runs of several steps. *)

From Coq Require Import ZArith List Bool Reals Lra Lia.
From Verif Require Import Num Base Units Types Utils TankM Logic HeatSrc Step FrameProofs SimFrame ControlProofs Spec RList.
Import ListNotations.

(** relation between the states before and after a successful action *)
Definition presOk {S A} (Rl : S -> S -> Prop) (m : M S A) : Prop := forall s a s', m s = (Ok a, s') -> Rl s s'.
Lemma presOk_pres {S A} (Rl : S -> S -> Prop) (m : M S A) : pres Rl m -> presOk Rl m.
Proof. intros HP s a s' E. specialize (HP s). rewrite E in HP. exact HP. Qed.
Lemma presOk_bind {S A B} (Rl : S -> S -> Prop) (Rt : forall a b c, Rl a b -> Rl b c -> Rl a c)
  (m : M S A) (f : A -> M S B) : presOk Rl m -> (forall a, presOk Rl (f a)) -> presOk Rl (bind m f).
Proof. intros H1 H2 s b s' E. apply bind_inv in E. destruct E as (a & s1 & E1 & E). eapply Rt; [eapply H1|eapply H2]; eauto. Qed.
Lemma presOk_when {S} (Rl : S -> S -> Prop) (Rr : forall s, Rl s s) (b : bool) (m : M S unit) : presOk Rl m -> presOk Rl (when b m).
Proof. intros HP. destruct b; cbn; auto. apply presOk_pres. apply pres_ret; auto. Qed.
Lemma presOk_foldM {S A B} (Rl : S -> S -> Prop) (Rr : forall s, Rl s s) (Rt : forall a b c, Rl a b -> Rl b c -> Rl a c)
  (l : list A) (f : A -> B -> M S B) : (forall x b, presOk Rl (f x b)) -> forall b, presOk Rl (foldM l f b).
Proof.
  intros HF. induction l; intros b; cbn; [apply presOk_pres; apply pres_ret; auto|]. apply presOk_bind; auto.
Qed.

Section Keep.
  Context {T : Type} `{Num T}.
  Notation W := (hpwh T).

  (** outlet temperature and standby losses of the tank; with [b] also the setpoint *)
  Definition kframe (b : bool) (w w' : W) : Prop :=
    t_outletT (w_tank w') = t_outletT (w_tank w) /\ t_stby (w_tank w') = t_stby (w_tank w) /\
    w_setFixed w' = w_setFixed w /\ (b = true -> w_setpoint w' = w_setpoint w).
  Lemma kframe_refl b w : kframe b w w.
  Proof. repeat split. Qed.
  Lemma kframe_trans b x y z : kframe b x y -> kframe b y z -> kframe b x z.
  Proof. intros (A1 & A2 & A3 & A4) (B1 & B2 & B3 & B4). repeat split; try congruence. intros E. rewrite B4, A4; auto. Qed.
  Lemma kframe_weaken w w' b : kframe true w w' -> kframe b w w'.
  Proof. intros (A1 & A2 & A3 & A4). repeat split; auto. Qed.
  Lemma oframe_kframe b w w' : oframe w w' -> kframe b w w'.
  Proof. intros (_ & ->). repeat split. Qed.
  Lemma oframe_pres_kframe b {A} (m : M W A) : pres oframe m -> pres (kframe b) m.
  Proof. apply pres_weaken. apply oframe_kframe. Qed.

  Ltac pstep Rl Rr Rt :=
    lazymatch goal with
    | |- pres _ (ret _) => apply (pres_ret Rl Rr)
    | |- pres _ (throw _) => apply (pres_throw Rl Rr)
    | |- pres _ (undef _) => apply (pres_undef Rl Rr)
    | |- pres _ nofuel => apply (pres_nofuel Rl Rr)
    | |- pres _ get => apply (pres_get Rl Rr)
    | |- pres _ (lift _) => apply (pres_lift Rl Rr)
    | |- pres _ (getHS _) => apply (getHS_pres Rl Rr)
    | |- pres _ (askHS _ _) => apply (askHS_pres Rl Rr)
    | |- pres _ (when _ _) => apply (pres_when Rl Rr)
    | |- pres _ (bind _ _) => apply (pres_bind Rl Rt); [|intro]
    | |- pres _ (if ?c then _ else _) => destruct c
    | |- pres _ (match ?c with _ => _ end) => destruct c
    end.
  Ltac kp b :=
    cbv zeta;
    repeat first
      [ pstep (kframe b) (kframe_refl b) (kframe_trans b)
      | lazymatch goal with
        | |- pres _ (modify _) => apply (pres_modify (kframe b)); intro; repeat split
        | |- pres _ (modHS _ _) => apply (pres_modify (kframe b)); intro; repeat split
        | |- pres _ (disengage _) => apply (pres_modify (kframe b)); intro; repeat split
        end ].

  Lemma updateSoC_kframe b : pres (kframe b) updateSoC.
  Proof. unfold updateSoC. kp b. Qed.
  Lemma mix_kframe b fuel : pres (kframe b) (onTank (mixInversions fuel)).
  Proof.
    intros w. unfold onTank, mixInversions. unfold bind at 1, get at 1.
    destruct (t_doMix (w_tank w)); [|repeat split].
    unfold bind, lift. destruct (mixLoop fuel _ _); repeat split.
  Qed.
  Lemma heatNodes_kframe b fuel h cap mx : pres (kframe b) (heatNodes fuel h cap mx).
  Proof.
    intros w. unfold heatNodes. unfold bind at 1, get at 1. cbv beta iota.
    destruct (calcHeatDist fuel w h) as [dist|e|e|]; cbn; try apply kframe_refl.
    destruct (maxElement dist) as [mw|e|e|]; cbn; try apply kframe_refl.
    destruct (ndivok mw); [|apply kframe_refl].
    match goal with |- context [if ?c then undef _ else _] => destruct c end; [apply kframe_refl|].
    destruct (heatLoop _ _ _ _ _ _ _ _). repeat split.
  Qed.
  Lemma extLoopSP_kframe b mf i ext st fuel : forall a, pres (kframe b) (extLoopSP fuel mf i ext st a).
  Proof.
    induction fuel; intros a; cbn [extLoopSP]; kp b; auto;
      first [apply mix_kframe | apply updateSoC_kframe].
  Qed.
  Lemma extLoopMP_kframe b mf i ext fuel : forall a, pres (kframe b) (extLoopMP fuel mf i ext a).
  Proof.
    induction fuel; intros a; cbn [extLoopMP]; kp b; auto;
      first [apply mix_kframe | apply updateSoC_kframe].
  Qed.
  Lemma addHeatRes_kframe b fuel i m : pres (kframe b) (addHeatRes fuel i m).
  Proof. unfold addHeatRes. kp b. apply heatNodes_kframe. Qed.
  Lemma addHeatCond_kframe b fuel i ext m : pres (kframe b) (addHeatCond fuel i ext m).
  Proof.
    unfold addHeatCond, addHeatIntegrated, addHeatExternal, addHeatExternalMP, extFinish. kp b;
      first [apply heatNodes_kframe | apply extLoopSP_kframe | apply extLoopMP_kframe].
  Qed.
  Lemma setSetpointC_kframe v : pres (kframe false) (setSetpointC v).
  Proof. unfold setSetpointC. kp false. discriminate. Qed.
  Lemma addHeatParent_kframe fuel i amb m : pres (kframe false) (addHeatParent fuel i amb m).
  Proof.
    unfold addHeatParent. kp false;
      first [apply addHeatRes_kframe | apply addHeatCond_kframe | apply setSetpointC_kframe].
  Qed.

  (** lift a property of addHeatParent to the control part *)
  Section Lift.
    Variable Rl : W -> W -> Prop.
    Hypothesis Rr : forall s, Rl s s.
    Hypothesis Rt : forall a b c, Rl a b -> Rl b c -> Rl a c.
    Hypothesis Ho : forall a b, oframe a b -> Rl a b.
    Lemma control_lift fuel dr amb : (forall i m, pres Rl (addHeatParent fuel i amb m)) -> pres Rl (control fuel dr amb).
    Proof.
      intros HA.
      assert (HO : forall A (m : M W A), pres oframe m -> pres Rl m) by (intros A m; apply pres_weaken; auto).
      unfold control, heatSources.
      repeat pstep Rl Rr Rt; try (apply HO; first [apply turnAllOff_oframe | apply topOff_oframe | apply chooseLoop_oframe]).
      apply (pres_foldM Rl Rr Rt). intros i m. unfold heatOne, afterEarly, runBackup, resLock. cbv zeta.
      repeat pstep Rl Rr Rt; auto;
        apply HO; first [apply lockOne_oframe | apply heatTarget_oframe | apply disengage_oframe
                        | apply engageHS_oframe | apply toLock_oframe].
    Qed.
    Lemma control_liftOk fuel dr amb : (forall i m, presOk Rl (addHeatParent fuel i amb m)) -> presOk Rl (control fuel dr amb).
    Proof.
      intros HA.
      assert (HO : forall A (m : M W A), pres oframe m -> presOk Rl m).
      { intros A m HP. apply presOk_pres. eapply pres_weaken; eauto. }
      assert (HR : forall A (a : A), presOk Rl (ret a)) by (intros; apply presOk_pres; apply pres_ret; auto).
      assert (HG : presOk Rl get) by (apply presOk_pres; apply pres_get; auto).
      assert (HH : forall i, presOk Rl (getHS i)) by (intros; apply presOk_pres; apply getHS_pres; auto).
      assert (HQ : forall A i (q : W -> hsrc T -> outc A), presOk Rl (askHS i q)) by (intros; apply presOk_pres; apply askHS_pres; auto).
      unfold control, heatSources.
      Ltac pok Rt Rr HO :=
        repeat first [assumption | lazymatch goal with
          | |- presOk _ (bind _ _) => apply (presOk_bind _ Rt); [|intro]
          | |- presOk _ (when _ _) => apply (presOk_when _ Rr)
          | |- presOk _ (if ?c then _ else _) => destruct c
          | |- presOk _ (match ?c with _ => _ end) => destruct c
          end].
      pok Rt Rr HO; auto; try (apply HO; first [apply turnAllOff_oframe | apply topOff_oframe | apply chooseLoop_oframe]).
      apply (presOk_foldM Rl Rr Rt). intros i m. unfold heatOne, afterEarly, runBackup, resLock. cbv zeta.
      pok Rt Rr HO; auto;
        apply HO; first [apply lockOne_oframe | apply heatTarget_oframe | apply disengage_oframe
                        | apply engageHS_oframe | apply toLock_oframe].
    Qed.
  End Lift.

  Lemma control_kframe fuel dr amb : pres (kframe false) (control fuel dr amb).
  Proof.
    apply control_lift; [apply kframe_refl|apply kframe_trans|intros; apply oframe_kframe; auto|].
    intros; apply addHeatParent_kframe.
  Qed.

  (** ** The rest of the step keeps the setpoint, outlet temperature and losses *)
  Lemma addExtra_keep q i (t : tank T) : t_outletT (snd (addExtraHeatAboveNode q i t)) = t_outletT t /\ t_stby (snd (addExtraHeatAboveNode q i t)) = t_stby t.
  Proof. split; reflexivity. Qed.
  Lemma extraLoop_kframe b dist m k : forall tot, pres (kframe b) (extraLoop dist m k tot).
  Proof. induction k; intros tot; cbn [extraLoop]; kp b; auto. intros w. repeat split. Qed.
  Lemma stepExtra_kframe b fuel x : pres (kframe b) (stepExtra fuel x).
  Proof. unfold stepExtra, addExtraHeat. kp b; [apply extraLoop_kframe|apply updateSoC_kframe]. Qed.
  Lemma afterControl_kframe b (w : W) : kframe b w (afterControl w).
  Proof. unfold afterControl. destruct (allOff w); repeat split. Qed.
  Lemma stepTail_kframe b g dr (w : W) : kframe b w (stepTimer dr (stepSettle (stepDepress g w))).
  Proof.
    eapply kframe_trans with (y := stepSettle (stepDepress g w)).
    - eapply kframe_trans with (y := stepDepress g w).
      + unfold stepDepress. destruct (w_doDepress w); repeat split.
      + generalize (stepDepress g w). intros v. repeat split.
    - generalize (stepSettle (stepDepress g w)). intros v. unfold stepTimer.
      destruct (_ && _)%bool; [|destruct (_ && _)%bool]; repeat split.
  Qed.
  (** everything after the draw and the losses *)
  Lemma step_keeps fuel x (w w' : W) : runOneStep fuel x w = (Ok tt, w') ->
    exists w1 w2 a, preControl fuel x w w1 a /\ control fuel (i_dr x) a w1 = (Ok tt, w2) /\ kframe true w2 w' /\ kframe false w1 w'.
  Proof.
    intros E. apply runOneStep_inv in E. destruct E as (w1 & w2 & w3 & a & HP & HC & HE & ->).
    exists w1, w2, a. split; [auto|split; [auto|]].
    assert (HK : kframe true w2 (stepTimer (i_dr x) (stepSettle (stepDepress (i_amb x) w3)))).
    { eapply kframe_trans; [apply afterControl_kframe|]. eapply kframe_trans; [|apply stepTail_kframe].
      exact (pres_Ok _ _ _ _ _ (stepExtra_kframe true fuel x) HE). }
    split; [exact HK|]. eapply kframe_trans; [|apply kframe_weaken; exact HK].
    exact (pres_Ok _ _ _ _ _ (control_kframe fuel (i_dr x) a) HC).
  Qed.
  Lemma preControl_setpoint fuel x (w w1 : W) a : preControl fuel x w w1 a ->
    w_setpoint w1 = w_setpoint w /\ w_setFixed w1 = w_setFixed w.
  Proof. intros (l & t & sc & -> & _). auto. Qed.

  (** ** Sequences of steps *)
  Inductive runs (fuel : nat) : list rowIn -> W -> list W -> W -> Prop :=
  | runs_nil w : runs fuel [] w [] w
  | runs_cons r rows w w1 ws w' :
      runOneStepInlet fuel (r_inletT r) (row_step r) w = (Ok tt, w1) -> runs fuel rows w1 ws w' ->
      runs fuel (r :: rows) w (w1 :: ws) w'.

  Lemma step_nhs fuel x (w w' : W) : runOneStep fuel x w = (Ok tt, w') -> length (w_hs w') = length (w_hs w).
  Proof.
    intros E. apply step_hs in E. destruct E as (w1 & w2 & a & HP & HC & -> & _). rewrite map_length.
    pose proof (pres_Ok _ _ _ _ _ (control_cframe fuel (i_dr x) a) HC) as HF.
    rewrite (cframe_len _ _ _ HF), (preControl_hs _ _ _ _ _ HP), map_length. reflexivity.
  Qed.
  Lemma stepInlet_nhs fuel t x (w w' : W) : runOneStepInlet fuel t x w = (Ok tt, w') -> length (w_hs w') = length (w_hs w).
  Proof. unfold runOneStepInlet. unfold bind, modify. intros E. apply step_nhs in E. exact E. Qed.

  Lemma foldM_runs fuel rows : forall s w s' w',
    foldM rows (fun r s => bind (runOneStepInlet fuel (r_inletT r) (row_step r)) (fun _ => bind get (fun w => ret (addSums w r s)))) s w = (Ok s', w') ->
    exists ws, runs fuel rows w ws w' /\ s' = fold_left (fun s '(w, r) => addSums w r s) (combine ws rows) s.
  Proof.
    induction rows as [|r rows IH]; intros s w s' w' E; cbn [foldM] in E.
    - apply ret_inv in E. destruct E as [-> <-]. exists []. split; [constructor|reflexivity].
    - apply bind_inv in E. destruct E as (s1 & w1 & E1 & E).
      apply bind_inv in E1. destruct E1 as ([] & w2 & E2 & E1).
      apply bind_inv in E1. destruct E1 as (wx & wy & E3 & E1). apply get_inv in E3. destruct E3 as [-> ->].
      apply ret_inv in E1. destruct E1 as [-> <-].
      apply IH in E. destruct E as (ws & HR & ->). exists (w2 :: ws). split; [econstructor; eauto|reflexivity].
  Qed.
  Lemma runs_nhs fuel rows : forall w ws w', runs fuel rows w ws w' -> Forall (fun v => length (w_hs v) = length (w_hs w)) ws /\ length (w_hs w') = length (w_hs w) /\ length ws = length rows.
  Proof.
    intros w ws w' HR. induction HR as [|r rows w w1 ws w' E HR IH]; [repeat split; auto|].
    destruct IH as (A & B & C). pose proof (stepInlet_nhs _ _ _ _ _ E) as HL. repeat split.
    - constructor; auto. eapply Forall_impl; [|exact A]. cbn. intros; congruence.
    - congruence.
    - cbn; congruence.
  Qed.
End Keep.
