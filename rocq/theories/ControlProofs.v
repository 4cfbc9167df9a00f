(** Demand response, choice of heat sources and idle steps, for every number type. *)

From Coq Require Import ZArith List Bool Lia.
From Verif Require Import Num Base Units Types Utils TankM Logic HeatSrc Step FrameProofs SimFrame.
Import ListNotations.

Section ControlProofs.
  Context {T : Type} `{Num T}.
  Notation W := (hpwh T).

  (** ** Sources locked out by demand response receive no run time *)

  Definition okDR (dr : Z) (k : nat) (w : W) : Prop :=
    forall h, nth_error (w_hs w) k = Some h -> shouldDRLockOut (h_type h) dr = false.
  Definition lockedT (dr : Z) : hstype -> Prop := fun t => shouldDRLockOut t dr = true.

  Lemma okDR_okI dr k w : okDR dr k w -> okI (lockedT dr) k w.
  Proof. intros HO h E HL. unfold lockedT in HL. rewrite (HO h E) in HL. discriminate. Qed.
  Lemma okDR_oframe dr k (w w' : W) : oframe w w' -> okDR dr k w -> okDR dr k w'.
  Proof.
    intros HF HO h' E. destruct (oframe_hs_r _ _ _ _ HF E) as (h & E1 & F). rewrite F. cbn. eauto.
  Qed.

  Lemma lift_inv {A} (o : outc A) (w : W) a w' : lift o w = (Ok a, w') -> w' = w /\ o = Ok a.
  Proof. unfold lift. intros E; inversion E; auto. Qed.
  Lemma ret_inv {A} (b : A) (w : W) a w' : ret b w = (Ok a, w') -> w' = w /\ b = a.
  Proof. unfold ret. intros E; inversion E; auto. Qed.
  Lemma get_inv (w a w' : W) : get w = (Ok a, w') -> w' = w /\ a = w.
  Proof. unfold get. intros E; inversion E; auto. Qed.
  Lemma modify_inv f (w : W) w' : modify f w = (Ok tt, w') -> w' = f w.
  Proof. unfold modify. intros E; inversion E; auto. Qed.
  Lemma pres_Ok {A} (Rl : W -> W -> Prop) (m : M W A) w a w' : pres Rl m -> m w = (Ok a, w') -> Rl w w'.
  Proof. intros HP E. specialize (HP w). rewrite E in HP. exact HP. Qed.

  Lemma nth_updHS_same (hs : list (hsrc T)) i f h : nth_error hs i = Some h -> nth_error (updHS hs i f) i = Some (f h).
  Proof.
    intros E. unfold updHS. rewrite E. revert i E. induction hs; intros [|i] E; cbn in *; try discriminate; auto.
  Qed.
  Lemma nth_upd_other {A} (l : list A) i j x : i <> j -> nth_error (upd l i x) j = nth_error l j.
  Proof. revert i j; induction l; intros [|i] [|j] HN; cbn; auto; try lia. Qed.
  Lemma nth_updHS_other (hs : list (hsrc T)) i j f : i <> j -> nth_error (updHS hs i f) j = nth_error hs j.
  Proof. intros HN. unfold updHS. destruct (nth_error hs i); auto. apply nth_upd_other; auto. Qed.

  (** after the lock-outs a source locked out by demand response is locked, and off unless it has a
      backup *)
  Lemma lockOne_locked dr amb i (w w' : W) : lockOne dr amb i w = (Ok tt, w') ->
    forall h, nth_error (w_hs w') i = Some h -> shouldDRLockOut (h_type h) dr = true ->
      h_locked h = true /\ (h_backup h = None -> h_on h = false).
  Proof.
    unfold lockOne. intros E h Eh HD.
    apply bind_inv in E. destruct E as (h0 & w0 & E0 & E). apply getHS_inv in E0. destruct E0 as [-> E0].
    apply bind_inv in E. destruct E as ([] & w1 & E1 & E).
    apply bind_inv in E. destruct E as (h1 & w2 & E2 & E). apply getHS_inv in E2. destruct E2 as [-> E2].
    assert (HF : oframe w1 w').
    { eapply pres_Ok; [|exact E]. destruct (h_backup h1); [apply (pres_ret oframe oframe_refl)|].
      apply (pres_when oframe oframe_refl). apply disengage_oframe. }
    assert (HF0 : oframe w w1).
    { eapply pres_Ok; [|exact E1]. destruct (shouldDRLockOut _ _).
      - apply modHS_oframe. apply set_locked_oframe.
      - destruct (h_type h0).
        + apply (pres_bind oframe oframe_trans); [apply toLock_oframe|]. intros; apply (pres_ret oframe oframe_refl).
        + apply modHS_oframe. apply set_locked_oframe. }
    destruct (oframe_hs _ _ _ _ HF0 E0) as (h1' & E1' & F1). rewrite E2 in E1'. inversion E1'; subst h1'; clear E1'.
    destruct (oframe_hs _ _ _ _ HF E2) as (h' & E2' & F2). rewrite Eh in E2'. inversion E2'; subst h'; clear E2'.
    assert (HD1 : shouldDRLockOut (h_type h1) dr = true) by (rewrite F2 in HD; exact HD).
    assert (HD0 : shouldDRLockOut (h_type h0) dr = true) by (rewrite F1 in HD1; exact HD1).
    rewrite HD0 in E1. apply modify_inv in E1. subst w1.
    wsimpl_in E2. rewrite (nth_updHS_same _ _ _ _ E0) in E2. inversion E2; subst h1; clear E2.
    cbn [h_backup set_h_locked] in E.
    destruct (h_backup h0) eqn:Eb.
    - apply ret_inv in E. destruct E as [-> _]. wsimpl_in Eh. rewrite (nth_updHS_same _ _ _ _ E0) in Eh.
      inversion Eh; subst h. cbn. rewrite Eb. split; [auto|discriminate].
    - cbn [h_locked set_h_locked when] in E. apply modify_inv in E. subst w'. wsimpl_in Eh.
      erewrite nth_updHS_same in Eh by (apply nth_updHS_same; eassumption).
      inversion Eh; subst h. cbn. auto.
  Qed.

  Lemma heatTarget_ok dr amb i (w : W) o w' :
    (forall h, nth_error (w_hs w) i = Some h -> shouldDRLockOut (h_type h) dr = true ->
       h_locked h = true /\ h_backup h <> None) ->
    heatTarget dr amb i w = (Ok o, w') -> forall k, o = Some k -> okDR dr k w'.
  Proof.
    intros HL E k ->. pose proof (pres_Ok _ _ _ _ _ (heatTarget_oframe dr amb i) E) as HF.
    unfold heatTarget in E.
    apply bind_inv in E. destruct E as (h & w0 & E0 & E). apply getHS_inv in E0. destruct E0 as [-> E0].
    assert (Hself : shouldDRLockOut (h_type h) dr = false -> okDR dr i w).
    { intros HS h' E'. rewrite E0 in E'. inversion E'; subst. auto. }
    specialize (HL h E0).
    destruct (h_backup h) as [b|] eqn:Eb.
    - destruct (h_locked h) eqn:El.
      + apply bind_inv in E. destruct E as (hb & w1 & E1 & E). apply getHS_inv in E1. destruct E1 as [-> E1].
        cbv zeta in E.
        apply bind_inv in E. destruct E as (lk & w2 & E2 & E).
        destruct (h_on hb || shouldDRLockOut (h_type hb) dr || lk)%bool eqn:EL.
        * apply ret_inv in E. destruct E; discriminate.
        * apply bind_inv in E. destruct E as (wx & w3 & E3 & E). 
          apply bind_inv in E. destruct E as (vo & w4 & E4 & E).
          assert (k = b).
          { destruct (h_type hb); [|destruct vo]; apply ret_inv in E; destruct E as [_ E]; inversion E; auto. }
          subst k. eapply okDR_oframe; [exact HF|].
          intros h' E'. rewrite E1 in E'. inversion E'; subst h'.
          destruct (h_on hb), (shouldDRLockOut (h_type hb) dr); cbn in EL; auto; discriminate.
      + apply ret_inv in E. destruct E as [-> E]. inversion E; subst k. apply Hself.
        destruct (shouldDRLockOut (h_type h) dr); auto. destruct (HL eq_refl); discriminate.
    - apply ret_inv in E. destruct E as [-> E]. inversion E; subst k. apply Hself.
      destruct (shouldDRLockOut (h_type h) dr); auto. destruct (HL eq_refl); congruence.
  Qed.

  Lemma addHeatParent_DR dr fuel k amb m (w : W) : okDR dr k w -> cframe (lockedT dr) w (snd (addHeatParent fuel k amb m w)).
  Proof. intros HO. apply addHeatParent_gframe. apply okDR_okI. auto. Qed.

  Ltac pstep Rl Rr Rt :=
    lazymatch goal with
    | |- pres _ (ret _) => apply (pres_ret Rl Rr)
    | |- pres _ (throw _) => apply (pres_throw Rl Rr)
    | |- pres _ (undef _) => apply (pres_undef Rl Rr)
    | |- pres _ nofuel => apply (pres_nofuel Rl Rr)
    | |- pres _ get => apply (pres_get Rl Rr)
    | |- pres _ (lift _) => apply (pres_lift Rl Rr)
    | |- pres _ (getHS _) => apply (getHS_pres Rl Rr)
    | |- pres _ (askHS _ _) => apply (askHS_pres Rl Rr)
    | |- pres _ (when _ _) => apply (pres_when Rl Rr)
    | |- pres _ (bind _ _) => apply (pres_bind Rl Rt); [|intro]
    | |- pres _ (if ?c then _ else _) => destruct c
    | |- pres _ (match ?c with _ => _ end) => destruct c
    end.

  Lemma runBackup_DR fuel dr amb m i b : pres (cframe (lockedT dr)) (runBackup fuel dr amb m i b).
  Proof.
    set (P := lockedT dr).
    unfold runBackup.
    apply (pres_bind (cframe P) (cframe_trans P)); [apply (getHS_pres _ (cframe_refl P))|]. intros h.
    apply (pres_bindQ (cframe P) (cframe_trans P) (fun hb w => nth_error (w_hs w) b = Some hb));
      [apply (getHS_pres _ (cframe_refl P))|apply getHS_tri|].
    intros hb w Eb. cbv zeta.
    match goal with |- context [bind ?m ?f] => assert (HL : pres oframe m) end.
    { unfold resLock. destruct (h_type hb); [apply toLock_oframe|]. destruct (h_type h); [apply (pres_ret oframe oframe_refl)|].
      apply (pres_bind oframe oframe_trans); [apply (getHS_pres oframe oframe_refl)|]. intros; apply (pres_ret oframe oframe_refl). }
    match goal with |- context [bind ?m ?f] => set (mm := m) in * end.
    unfold bind at 1. specialize (HL w). destruct (mm w) as [[lk|e|e|] w1]; cbn [snd] in *; try (apply oframe_cframe; exact HL).
    eapply cframe_trans; [apply oframe_cframe; exact HL|].
    destruct (negb (h_on hb) && negb (shouldDRLockOut (h_type hb) dr) && negb lk)%bool eqn:EA; [|apply cframe_refl].
    assert (HD : shouldDRLockOut (h_type hb) dr = false).
    { destruct (h_on hb), (shouldDRLockOut (h_type hb) dr); auto; discriminate. }
    assert (HO : okDR dr b w1).
    { eapply okDR_oframe; [exact HL|]. intros h' E'. rewrite Eb in E'. inversion E'; subst; auto. }
    refine ((_ : pres (gframe P b) _) w1 (okDR_okI _ _ _ HO)).
    apply (pres_bind (gframe P b) (gframe_trans P b)).
    { apply cframe_gframe. apply oframe_pres_cframe. apply engageHS_oframe. }
    intros []. apply (pres_bind (gframe P b) (gframe_trans P b)); [apply (getHS_pres _ (gframe_refl P b))|].
    intros hb'. apply (pres_when _ (gframe_refl P b)). apply addHeatParent_gframe.
  Qed.

  Lemma afterEarly_DR fuel dr amb m i : pres (cframe (lockedT dr)) (afterEarly fuel dr amb m i).
  Proof.
    set (P := lockedT dr). unfold afterEarly.
    repeat pstep (cframe (T:=T) P) (cframe_refl (T:=T) P) (cframe_trans (T:=T) P);
      try (apply oframe_pres_cframe; first [apply disengage_oframe | apply engageHS_oframe]).
    apply runBackup_DR.
  Qed.

  Lemma heatOne_DR fuel dr amb i m : pres (cframe (lockedT dr)) (heatOne fuel dr amb i m).
  Proof.
    set (P := lockedT dr). unfold heatOne.
    apply (pres_bindQ (cframe P) (cframe_trans P)
             (fun _ w => forall h, nth_error (w_hs w) i = Some h -> shouldDRLockOut (h_type h) dr = true ->
                h_locked h = true /\ (h_backup h = None -> h_on h = false))).
    { apply oframe_pres_cframe. apply lockOne_oframe. }
    { intros w [] w' _ E. eapply lockOne_locked; eauto. }
    intros _ w HL. unfold bind at 1. unfold getHS at 1.
    destruct (nth_error (w_hs w) i) as [h|] eqn:Ei; [|apply cframe_refl].
    destruct (h_on h) eqn:Eon; [|apply cframe_refl].
    pose proof (heatTarget_oframe dr amb i w) as HF. unfold bind at 1.
    destruct (heatTarget dr amb i w) as [[o|e|e|] w1] eqn:Et; cbn [snd] in HF; try (apply oframe_cframe; exact HF).
    eapply cframe_trans; [apply oframe_cframe; exact HF|].
    destruct o as [k|]; [|apply cframe_refl].
    assert (HO : okDR dr k w1).
    { eapply (heatTarget_ok dr amb i w (Some k) w1); eauto.
      intros h' E' HD. rewrite Ei in E'. inversion E'; subst h'. destruct (HL h eq_refl HD) as [A B]. split; auto.
      intros HB. rewrite (B HB) in Eon. discriminate. }
    refine ((_ : pres (gframe P k) _) w1 (okDR_okI _ _ _ HO)).
    apply (pres_bind (gframe P k) (gframe_trans P k)); [apply addHeatParent_gframe|]. intros [].
    apply cframe_gframe.
    repeat pstep (cframe (T:=T) P) (cframe_refl (T:=T) P) (cframe_trans (T:=T) P). apply afterEarly_DR.
  Qed.

  (** the whole control part leaves the energies of locked-out sources alone, whatever the signal *)
  Lemma control_DR fuel dr amb : pres (cframe (lockedT dr)) (control fuel dr amb).
  Proof.
    set (P := lockedT dr). unfold control, heatSources.
    repeat pstep (cframe (T:=T) P) (cframe_refl (T:=T) P) (cframe_trans (T:=T) P);
      try (apply oframe_pres_cframe; first [apply turnAllOff_oframe | apply topOff_oframe | apply chooseLoop_oframe]).
    apply (pres_foldM (cframe P) (cframe_refl P) (cframe_trans P)). intros; apply heatOne_DR.
  Qed.

  (** standby input energy added at the end of the step to a source that did not run *)
  Lemma step_locked fuel x (w w' : W) : runOneStep fuel x w = (Ok tt, w') ->
    forall i h', nth_error (w_hs w') i = Some h' -> shouldDRLockOut (h_type h') (i_dr x) = true ->
      h_runtime h' = nofZ 0 /\ h_eOut h' = nofZ 0 /\
      h_eIn h' = match h_type h' with
                 | TResistance => nofZ 0
                 | TCompressor => nadd (nofZ 0) (nmul (h_stbyPwr h') (ndiv (nsub (w_minStep w) (nofZ 0)) min_per_hr))
                 end.
  Proof.
    intros E i h' E' HD. apply step_hs in E. destruct E as (w1 & w2 & a & HP & HC & Hhs & _).
    rewrite Hhs in E'. rewrite nth_error_map in E'.
    destruct (nth_error (w_hs w2) i) as [h2|] eqn:E2; [|discriminate]. cbn in E'. inversion E'; subst h'; clear E'.
    pose proof (pres_Ok _ _ _ _ _ (control_DR fuel (i_dr x) a) HC) as HF.
    destruct (cframe_hs_r _ _ _ _ _ HF E2) as (h1 & E1 & F1 & S1).
    rewrite (preControl_hs _ _ _ _ _ HP), nth_error_map in E1.
    destruct (nth_error (w_hs w) i) as [h0|]; [|discriminate]. cbn in E1. inversion E1; subst h1; clear E1.
    assert (Ht : h_type (settleHS (w_minStep w) h2) = h_type h2) by (unfold settleHS; destruct (h_type h2) eqn:Et; [cbn|]; auto).
    rewrite Ht in *. rewrite (hframe_type _ _ F1) in HD.
    destruct (S1 HD) as (R1 & R2 & R3). cbn in R1, R2, R3.
    assert (Hp : h_stbyPwr (settleHS (w_minStep w) h2) = h_stbyPwr h2) by (unfold settleHS; destruct (h_type h2); reflexivity).
    unfold settleHS at 1 2 3. destruct (h_type h2); cbn; rewrite ?Hp, ?R1, ?R2, ?R3; auto.
  Qed.

  (** both lock-outs: nothing is on and the tank only sees the draw, the losses and the extra heat *)
  Lemma step_locked_all fuel x (w w' : W) : runOneStep fuel x w = (Ok tt, w') ->
    dr_has DR_LOC (i_dr x) = true -> dr_has DR_LOR (i_dr x) = true ->
    Forall (fun h => h_on h = false) (w_hs w') /\ w_heating w' = false.
  Proof.
    intros E H1 H2. apply step_hs in E. destruct E as (w1 & w2 & a & HP & HC & Hhs & Hh).
    unfold control in HC. rewrite H1, H2 in HC. cbn [andb] in HC. apply modify_inv in HC. subst w2.
    split.
    - rewrite Hhs. wsimpl. rewrite map_map. apply Forall_map. apply Forall_forall. intros h _.
      unfold settleHS. cbn. destruct (h_type h); reflexivity.
    - rewrite Hh. unfold afterControl. destruct (allOff _); reflexivity.
  Qed.
  Lemma step_locked_tank fuel x (w w' : W) : runOneStep fuel x w = (Ok tt, w') ->
    dr_has DR_LOC (i_dr x) = true -> dr_has DR_LOR (i_dr x) = true -> i_extra x = None ->
    updateNodes fuel (w_hrStep w) (w_secStep w) (i_draw x) (w_inletT w)
      (if w_doDepress w then (if neqb (w_locT w) UNINITIALIZED_LOCATIONTEMP then i_amb x else w_locT w) else i_amb x)
      (i_vol2 x) (i_inT2 x) (resetTank w) = (Ok tt, w_tank w').
  Proof.
    intros E H1 H2 H3. apply runOneStep_inv in E. destruct E as (w1 & w2 & w3 & a & HP & HC & HE & ->).
    unfold control in HC. rewrite H1, H2 in HC. cbn [andb] in HC. apply modify_inv in HC.
    unfold stepExtra in HE. rewrite H3 in HE. apply ret_inv in HE. destruct HE as [-> _].
    destruct (stepTimer_hs (i_dr x) (stepSettle (stepDepress (i_amb x) (afterControl w2)))) as (_ & -> & _).
    transitivity (@Ok unit tt, w_tank (stepDepress (i_amb x) (afterControl w2))); [|reflexivity].
    destruct (stepDepress_hs (i_amb x) (afterControl w2)) as (_ & _ & -> & _).
    destruct (afterControl_hs w2) as (_ & -> & _). rewrite HC.
    destruct HP as (l & t & sc & -> & Hl & _ & HU & _).
    transitivity (@Ok unit tt, t); [|reflexivity]. rewrite <- HU. rewrite Hl. destruct (w_doDepress w); reflexivity.
  Qed.
  (** ** Idle steps *)

  (** only locks change, and sources may be switched off *)
  Definition lframe (w w' : W) : Prop :=
    Forall2 (fun h h' => oframe_h h h' /\ (h_on h' = true -> h_on h = true)) (w_hs w) (w_hs w') /\
    w' = set_w_hs (w_hs w') w.
  Lemma lframe_refl w : lframe w w.
  Proof. split; [apply Forall2_refl'; intros; split; [apply oframe_h_refl|auto]|destruct w; reflexivity]. Qed.
  Lemma lframe_trans a b c : lframe a b -> lframe b c -> lframe a c.
  Proof.
    intros (H1 & H2) (H3 & H4). split.
    - eapply Forall2_trans'; eauto. cbn. intros x y z [A B] [C D]. split; auto. eapply oframe_h_trans; eauto.
    - rewrite H4, H2. reflexivity.
  Qed.
  Lemma modHS_lframe i f : (forall h, oframe_h h (f h) /\ (h_on (f h) = true -> h_on h = true)) -> pres lframe (modHS i f).
  Proof.
    intros HF w. split; [|reflexivity]. apply updHS_F2; auto. intros; split; [apply oframe_h_refl|auto].
  Qed.
  Lemma set_locked_lframe b (h : hsrc T) : oframe_h h (set_h_locked b h) /\ (h_on (set_h_locked b h) = true -> h_on h = true).
  Proof. split; [apply set_locked_oframe|]. auto. Qed.
  Lemma set_off_lframe (h : hsrc T) : oframe_h h (set_h_on false h) /\ (h_on (set_h_on false h) = true -> h_on h = true).
  Proof. split; [apply set_on_oframe|]. cbn. discriminate. Qed.
  Lemma toLock_lframe i amb : pres lframe (toLockOrUnlock i amb).
  Proof.
    unfold toLockOrUnlock.
    repeat first [pstep (lframe) (lframe_refl) (lframe_trans)
                 | lazymatch goal with |- pres _ (modHS _ _) => apply modHS_lframe; intro; apply set_locked_lframe end].
  Qed.
  Lemma lockOne_lframe dr amb i : pres lframe (lockOne dr amb i).
  Proof.
    unfold lockOne.
    repeat first [pstep (lframe) (lframe_refl) (lframe_trans)
                 | lazymatch goal with
                   | |- pres _ (modHS _ _) => apply modHS_lframe; intro; apply set_locked_lframe
                   | |- pres _ (disengage _) => apply modHS_lframe; intro; apply set_off_lframe end].
    apply toLock_lframe.
  Qed.
  Definition allOffP (w : W) : Prop := Forall (fun h => h_on h = false) (w_hs w).
  Lemma allOffP_nth w i h : allOffP w -> nth_error (w_hs w) i = Some h -> h_on h = false.
  Proof. intros HA E. unfold allOffP in HA. rewrite Forall_forall in HA. apply HA. eapply nth_error_In; eauto. Qed.
  Lemma lframe_off w w' : lframe w w' -> allOffP w -> allOffP w'.
  Proof.
    intros (H1 & _) HA. apply Forall_forall. intros h' Hin. apply In_nth_error in Hin. destruct Hin as [i E].
    destruct (Forall2_nth_r _ _ _ _ _ H1 E) as (h & E1 & _ & HO).
    pose proof (allOffP_nth _ _ _ HA E1). destruct (h_on h'); auto. rewrite HO in H0; auto.
  Qed.
  Lemma lframe_oframe w w' : lframe w w' -> oframe w w'.
  Proof.
    intros (H1 & H2). split.
    - eapply Forall2_impl'; [|eassumption]. intros ? ? []; auto.
    - rewrite H2. destruct w; reflexivity.
  Qed.

  (** a relation that only holds from all-off states *)
  Definition offR (w w' : W) : Prop := allOffP w -> lframe w w'.
  Lemma offR_refl w : offR w w.
  Proof. intros _. apply lframe_refl. Qed.
  Lemma offR_trans a b c : offR a b -> offR b c -> offR a c.
  Proof. intros H1 H2 HA. eapply lframe_trans; eauto. apply H2. eapply lframe_off; eauto. Qed.
  Lemma heatOne_off fuel dr amb i m : pres offR (heatOne fuel dr amb i m).
  Proof.
    unfold heatOne.
    apply (pres_bind offR offR_trans); [intros w _; apply lockOne_lframe|]. intros [].
    intros w HA. unfold bind at 1, getHS at 1. destruct (nth_error (w_hs w) i) as [h|] eqn:E; [|apply lframe_refl].
    rewrite (allOffP_nth _ _ _ HA E). apply lframe_refl.
  Qed.
  Lemma heatSources_off fuel dr amb : pres offR (heatSources fuel dr amb).
  Proof.
    unfold heatSources. repeat pstep (offR) (offR_refl) (offR_trans).
    apply (pres_foldM offR offR_refl offR_trans). intros; apply heatOne_off.
  Qed.

  Lemma chooseLoop_idle dr (w : W) :
    w_heating w = false -> Forall (fun h => shouldHeat w h = Ok false) (w_hs w) -> chooseLoop dr w = (Ok tt, w).
  Proof.
    intros Hh HS. unfold chooseLoop. unfold bind at 1, get at 1.
    assert (HI : forall l, (forall i, In i l -> (i < length (w_hs w))%nat) -> forM_break l (chooseOne dr) w = (Ok tt, w)).
    { induction l as [|i l IH]; intros HL; [reflexivity|]. cbn [forM_break]. unfold bind at 1.
      assert (EC : chooseOne dr i w = (Ok false, w)).
      { unfold chooseOne. unfold bind at 1, get at 1. rewrite Hh.
        destruct (nth_error (w_hs w) i) as [h|] eqn:E.
        - assert (Hs : shouldHeat w h = Ok false).
          { rewrite Forall_forall in HS. apply HS. eapply nth_error_In; eauto. }
          unfold askHS, bind, getHS, get, lift, when, ret. rewrite E, Hs. reflexivity.
        - apply nth_error_None in E. specialize (HL i (or_introl eq_refl)). lia. }
      rewrite EC. apply IH. intros j Hj. apply HL. right; auto. }
    apply HI. intros i Hi. apply in_seq in Hi. unfold numHS in Hi. lia.
  Qed.

  (** HPWH.cc:312: the signal forces a top-off in this step *)
  Lemma control_idle fuel dr amb (w w' : W) :
    allOffP w -> w_heating w = false ->
    ((dr_has DR_TOO dr || dr_has DR_TOT dr) && neqb (w_timer w) (nofZ 0))%bool = false ->
    Forall (fun h => shouldHeat w h = Ok false) (w_hs w) ->
    control fuel dr amb w = (Ok tt, w') -> lframe w w' \/ w' = set_w_heating false (set_w_hs (map (set_h_on false) (w_hs w)) w).
  Proof.
    intros HA Hh HT HS E. unfold control in E.
    destruct (dr_has DR_LOC dr && dr_has DR_LOR dr)%bool.
    { right. apply modify_inv in E. auto. }
    left. apply bind_inv in E. destruct E as ([] & w1 & E1 & E).
    unfold topOff in E1. unfold bind at 1, get at 1 in E1. rewrite HT in E1. apply ret_inv in E1. destruct E1 as [-> _].
    apply bind_inv in E. destruct E as ([] & w2 & E2 & E).
    rewrite (chooseLoop_idle dr w Hh HS) in E2. inversion E2; subst w2.
    exact (pres_Ok _ _ _ _ _ (heatSources_off fuel dr amb) E HA).
  Qed.

  Lemma map_off_id (hs : list (hsrc T)) : Forall (fun h => h_on h = false) hs -> map (set_h_on false) hs = hs.
  Proof. intros HF. induction HF as [|h hs E]; cbn; auto. f_equal; auto. destruct h; cbn in *; subst; reflexivity. Qed.

  Lemma step_idle fuel x (w w1 w' : W) hsAmb :
    preControl fuel x w w1 hsAmb ->
    allOffP w -> w_heating w = false ->
    ((dr_has DR_TOO (i_dr x) || dr_has DR_TOT (i_dr x)) && neqb (w_timer w) (nofZ 0))%bool = false ->
    Forall (fun h => shouldHeat w1 h = Ok false) (w_hs w1) ->
    runOneStep fuel x w = (Ok tt, w') ->
    w_heating w' = false /\ (i_extra x = None -> w_tank w' = w_tank w1) /\
    Forall2 (fun h h' => h_on h' = false /\ h_runtime h' = nofZ 0 /\ h_eOut h' = nofZ 0 /\
      h_eIn h' = match h_type h with
                 | TResistance => nofZ 0
                 | TCompressor => nadd (nofZ 0) (nmul (h_stbyPwr h) (ndiv (nsub (w_minStep w) (nofZ 0)) min_per_hr))
                 end) (w_hs w) (w_hs w').
  Proof.
    intros HP HA Hh HT HS E0. pose proof E0 as E. apply runOneStep_inv in E.
    destruct E as (v1 & w2 & w3 & a & HP' & HC & HE & E).
    destruct (preControl_fun _ _ _ _ _ _ _ HP HP') as [-> ->].
    assert (HA1 : allOffP w1).
    { unfold allOffP. rewrite (preControl_hs _ _ _ _ _ HP). apply Forall_map. exact HA. }
    assert (Hh1 : w_heating w1 = false) by (destruct HP as (l & t & sc & -> & _); exact Hh).
    assert (HT1 : w_timer w1 = w_timer w) by (destruct HP as (l & t & sc & -> & _); reflexivity).
    rewrite <- HT1 in HT.
    assert (HF : lframe w1 w2).
    { destruct (control_idle _ _ _ _ _ HA1 Hh1 HT HS HC) as [HF|HF]; auto.
      rewrite HF. rewrite (map_off_id _ HA1). split; [|cbn; rewrite <- Hh1 at 1; destruct w1; reflexivity].
      cbn. apply Forall2_refl'. intros; split; [apply oframe_h_refl|auto]. }
    apply step_hs in E0. destruct E0 as (v1 & v2 & b & HP2 & HC2 & Hhs & Hheat).
    destruct (preControl_fun _ _ _ _ _ _ _ HP HP2) as [-> ->]. rewrite HC in HC2. inversion HC2; subst v2; clear HC2 HP2.
    split; [|split].
    - rewrite Hheat. unfold afterControl. destruct (allOff w2); [reflexivity|]. destruct HF as (_ & ->). exact Hh1.
    - intros HX. unfold stepExtra in HE. rewrite HX in HE. apply ret_inv in HE. destruct HE as [-> _]. rewrite E.
      destruct (stepTimer_hs (i_dr x) (stepSettle (stepDepress (i_amb x) (afterControl w2)))) as (_ & -> & _).
      transitivity (w_tank (stepDepress (i_amb x) (afterControl w2))); [reflexivity|].
      destruct (stepDepress_hs (i_amb x) (afterControl w2)) as (_ & _ & -> & _).
      destruct (afterControl_hs w2) as (_ & -> & _). destruct HF as (_ & ->). reflexivity.
    - rewrite Hhs. destruct HF as (HF & _). rewrite (preControl_hs _ _ _ _ _ HP) in HF.
      clear - HF HA. revert HF. unfold allOffP in HA. generalize (w_hs w2). induction HA as [|h hs Eo HA IH]; intros l2 HF.
      + inversion HF; subst. constructor.
      + cbn in HF. inversion HF as [|? h2 ? l2' [Ho Hon] HF']; subst. cbn. constructor; [|auto].
        assert (E2 : h_on h2 = false).
        { destruct (h_on h2); auto. specialize (Hon eq_refl). cbn in Hon. congruence. }
        unfold oframe_h in Ho. rewrite E2 in Ho. rewrite Ho. unfold settleHS. cbn.
        destruct (h_type h); cbn; auto.
  Qed.
End ControlProofs.
