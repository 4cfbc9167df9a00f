(** The choice loop, queries that ignore on flags, and independence from the top-off bits;
    for every number type. *)

From Coq Require Import ZArith List Bool Lia.
From Verif Require Import Num Base Units Types Utils TankM Logic HeatSrc Step FrameProofs SimFrame ControlProofs.
Import ListNotations.

Section ChoiceProofs.
  Context {T : Type} `{Num T}.
  Notation W := (hpwh T).

  (** ** Queries only look at the tank, the setpoint and the state of charge *)
  Definition sameView (w w' : W) : Prop :=
    w_tank w' = w_tank w /\ w_setpoint w' = w_setpoint w /\ w_SoC w' = w_SoC w /\ w_haveInletT w' = w_haveInletT w.
  Lemma oframe_view w w' : oframe w w' -> sameView w w'.
  Proof. intros (_ & ->). repeat split. Qed.
  Lemma l_met_view w w' l : sameView w w' -> l_met w' l = l_met w l.
  Proof.
    intros (E1 & E2 & E3 & E4). unfold l_met, l_tankValue, l_comparison.
    destruct l; rewrite ?E1, ?E2, ?E3, ?E4; reflexivity.
  Qed.
  Lemma anyMet_view w w' ls : sameView w w' -> forall acc, anyMet w' ls acc = anyMet w ls acc.
  Proof.
    intros HV. induction ls; intros acc; cbn [anyMet]; auto. rewrite (l_met_view _ _ _ HV).
    destruct (l_met w a); cbn [obind]; auto.
  Qed.
  Lemma shutsOff_view w w' h h' : sameView w w' -> h_shutOff h' = h_shutOff h -> shutsOff w' h' = shutsOff w h.
  Proof.
    intros HV EH. unfold shutsOff. rewrite EH, (anyMet_view _ _ _ HV). destruct HV as (-> & -> & _). reflexivity.
  Qed.
  Lemma wantsHeat_view w w' st ls : sameView w w' -> wantsHeat w' st ls = wantsHeat w st ls.
  Proof.
    intros HV. induction ls; cbn [wantsHeat]; auto. rewrite (l_met_view _ _ _ HV), IHls.
    destruct HV as (E1 & E2 & E3 & E4).
    assert (HT : forall s, l_tankValue w' s = l_tankValue w s) by (intros []; cbn; rewrite ?E1, ?E3, ?E4; reflexivity).
    assert (HC : forall s, l_comparison w' s = l_comparison w s) by (intros []; cbn; rewrite ?E2; reflexivity).
    destruct st; auto. rewrite HT, HC. reflexivity.
  Qed.
  Lemma shouldHeat_view w w' h h' : sameView w w' -> h_turnOn h' = h_turnOn h -> h_standby h' = h_standby h ->
    h_shutOff h' = h_shutOff h -> shouldHeat w' h' = shouldHeat w h.
  Proof.
    intros HV E1 E2 E3. unfold shouldHeat. rewrite E1, E2, (wantsHeat_view _ _ _ _ HV), (shutsOff_view _ _ _ _ HV E3). reflexivity.
  Qed.
  Lemma shouldHeat_oframe w w' h h' : oframe w w' -> oframe_h h h' -> shouldHeat w' h' = shouldHeat w h.
  Proof.
    intros HF HO. unfold oframe_h in HO. rewrite HO. apply shouldHeat_view; auto. apply oframe_view; auto.
  Qed.
  Lemma shutsOff_oframe w w' h h' : oframe w w' -> oframe_h h h' -> shutsOff w' h' = shutsOff w h.
  Proof.
    intros HF HO. unfold oframe_h in HO. rewrite HO. apply shutsOff_view; auto. apply oframe_view; auto.
  Qed.

  (** ** Engaging a source without companion *)
  Definition turnOn (i : nat) (w : W) : W :=
    set_w_heating true (set_w_hs (updHS (w_hs w) i (set_h_on true)) w).
  Lemma engageHS_simple i dr w h : nth_error (w_hs w) i = Some h -> h_companion h = None ->
    engageHS i dr w = (Ok tt, turnOn i w).
  Proof.
    intros E EC. unfold engageHS. unfold bind at 1, get at 1. cbn [engage]. unfold bind at 1, getHS at 1. rewrite E.
    unfold bind, modHS, modify. rewrite EC. reflexivity.
  Qed.
  Lemma turnOn_oframe i w : oframe w (turnOn i w).
  Proof. split; [|reflexivity]. apply updHS_F2; [apply oframe_h_refl|]. intros; apply set_on_oframe. Qed.
  Lemma engage_heating dr fuel : forall j w w', engage fuel j dr w = (Ok tt, w') -> w_heating w' = true.
  Proof.
    induction fuel; intros j w w' E; cbn [engage] in E; [discriminate|].
    apply bind_inv in E. destruct E as (h & w0 & E0 & E). apply getHS_inv in E0. destruct E0 as [-> E0].
    apply bind_inv in E. destruct E as ([] & w1 & E1 & E). apply modify_inv in E1. subst w1.
    apply bind_inv in E. destruct E as ([] & w2 & E2 & E). apply modify_inv in E2.
    destruct (h_companion h).
    - apply bind_inv in E. destruct E as (off & w3 & E3 & E). apply askHS_inv in E3. destruct E3 as [-> _].
      destruct off; [apply ret_inv in E; destruct E as [-> _]; subst w2; reflexivity|].
      apply bind_inv in E. destruct E as (hc & w4 & E4 & E). apply getHS_inv in E4. destruct E4 as [-> _].
      destruct (_ || _)%bool; [apply ret_inv in E; destruct E as [-> _]; subst w2; reflexivity|]. eauto.
    - apply ret_inv in E. destruct E as [-> _]. subst w2. reflexivity.
  Qed.
  Lemma engageHS_heating i dr w w' : engageHS i dr w = (Ok tt, w') -> w_heating w' = true.
  Proof. unfold engageHS. unfold bind at 1, get at 1. eapply engage_heating. Qed.

  (** exactly source i is on *)
  Definition exactlyOn (i : nat) (w : W) : Prop :=
    forall j h, nth_error (w_hs w) j = Some h -> h_on h = Nat.eqb j i.
  Lemma exactlyOn_turnOn i w h : nth_error (w_hs w) i = Some h -> allOffP w -> exactlyOn i (turnOn i w).
  Proof.
    intros E HA j h' E'. unfold turnOn in E'. wsimpl_in E'.
    destruct (Nat.eqb_spec j i) as [->|HN].
    - rewrite (nth_updHS_same _ _ _ _ E) in E'. inversion E'; subst. reflexivity.
    - rewrite nth_updHS_other in E' by auto. eapply allOffP_nth; eauto.
  Qed.

  (** no other source reacts once exactly one non-VIP-challenged source is on *)
  Lemma suffix_stable dr i w : exactlyOn i w -> w_heating w = true ->
    forall l, (forall j, In j l -> j <> i /\ exists h, nth_error (w_hs w) j = Some h /\ h_vip h = false) ->
      forM_break l (chooseOne dr) w = (Ok tt, w).
  Proof.
    intros HX Hh. induction l as [|j l IH]; intros HL; [reflexivity|].
    cbn [forM_break]. unfold bind at 1.
    destruct (HL j (or_introl eq_refl)) as (HN & h & E & Ev).
    assert (EC : chooseOne dr j w = (Ok false, w)).
    { unfold chooseOne. unfold bind at 1, get at 1. rewrite Hh. unfold bind at 1, checkOff.
      unfold bind at 1, getHS at 1. rewrite E.
      assert (Eo : h_on h = false) by (rewrite (HX j h E); apply Nat.eqb_neq; auto).
      rewrite Eo. unfold ret at 1. unfold bind at 1, getHS at 1. rewrite E, Ev. reflexivity. }
    rewrite EC. apply IH. intros k Hk. apply HL. right; auto.
  Qed.

  Lemma forM_break_app {A} l1 l2 (f : A -> M W bool) w w1 :
    (forall x, In x l1 -> forall s s' b, f x s = (Ok b, s') -> b = false) ->
    forM_break l1 f w = (Ok tt, w1) -> forM_break (l1 ++ l2) f w = forM_break l2 f w1.
  Proof.
    revert w. induction l1 as [|x l1 IH]; intros w HF E; cbn in *.
    - unfold ret in E. inversion E; subst; auto.
    - unfold bind in *. destruct (f x w) as [[b|e|e|] s] eqn:Ef; try discriminate.
      rewrite (HF x (or_introl eq_refl) _ _ _ Ef) in *. apply IH; auto. intros; eapply HF; eauto.
  Qed.
  (** if the whole loop succeeds so does its first part *)
  Lemma forM_break_app_inv {A} l1 l2 (f : A -> M W bool) w w' :
    (forall x, In x l1 -> forall s s' b, f x s = (Ok b, s') -> b = false) ->
    forM_break (l1 ++ l2) f w = (Ok tt, w') ->
    exists w1, forM_break l1 f w = (Ok tt, w1) /\ forM_break l2 f w1 = (Ok tt, w').
  Proof.
    revert w. induction l1 as [|x l1 IH]; intros w HF E; cbn in *.
    - eexists; split; [reflexivity|auto].
    - unfold bind in *. destruct (f x w) as [[b|e|e|] s] eqn:Ef; try discriminate.
      rewrite (HF x (or_introl eq_refl) _ _ _ Ef) in *. apply IH; auto. intros; eapply HF; eauto.
  Qed.

  Lemma seq_split i n : (i < n)%nat -> seq 0 n = seq 0 i ++ i :: seq (S i) (n - S i).
  Proof.
    intros HL. replace n with (i + S (n - S i))%nat at 1 by lia. rewrite seq_app. cbn. reflexivity.
  Qed.

  (** first come, first served *)
  Lemma chooseLoop_first dr i w h :
    allOffP w -> w_heating w = false -> Forall (fun h => h_vip h = false) (w_hs w) ->
    nth_error (w_hs w) i = Some h -> h_companion h = None -> shouldHeat w h = Ok true ->
    (forall j hj, (j < i)%nat -> nth_error (w_hs w) j = Some hj -> shouldHeat w hj = Ok false) ->
    chooseLoop dr w = (Ok tt, turnOn i w) /\ exactlyOn i (turnOn i w).
  Proof.
    intros HA Hh HV E EC HS HB.
    assert (HX : exactlyOn i (turnOn i w)) by (eapply exactlyOn_turnOn; eauto).
    split; [|exact HX].
    assert (HL : (i < numHS w)%nat) by (apply nth_error_Some; congruence).
    unfold chooseLoop. unfold bind at 1, get at 1. rewrite (seq_split i _ HL).
    assert (HP : forall l, (forall j, In j l -> (j < i)%nat) -> forall r, forM_break (l ++ r) (chooseOne dr) w = forM_break r (chooseOne dr) w).
    { induction l as [|j l IH]; intros Hl r; [reflexivity|]. cbn [forM_break app]. unfold bind at 1.
      assert (Hj : (j < i)%nat) by (apply Hl; left; auto).
      assert (EC' : chooseOne dr j w = (Ok false, w)).
      { unfold chooseOne. unfold bind at 1, get at 1. rewrite Hh.
        destruct (nth_error (w_hs w) j) as [hj|] eqn:Ej; [|apply nth_error_None in Ej; unfold numHS in HL; lia].
        unfold askHS, bind, getHS, get, lift, when, ret. rewrite Ej, (HB j hj Hj Ej). reflexivity. }
      rewrite EC'. apply IH. intros k Hk. apply Hl. right; auto. }
    rewrite HP by (intros j Hj; apply in_seq in Hj; lia).
    cbn [forM_break]. unfold bind at 1.
    assert (EI : chooseOne dr i w = (Ok false, turnOn i w)).
    { unfold chooseOne. unfold bind at 1, get at 1. rewrite Hh. unfold bind at 1.
      unfold askHS, bind at 1, getHS, get, lift. rewrite E. unfold bind. rewrite HS. cbn [when].
      rewrite (engageHS_simple i dr w h E EC). reflexivity. }
    rewrite EI. apply (suffix_stable dr i); auto.
    intros j Hj. apply in_seq in Hj. split; [lia|].
    destruct (nth_error (w_hs w) j) as [hj|] eqn:Ej; [|apply nth_error_None in Ej; unfold numHS in Hj; lia].
    exists hj. split.
    - unfold turnOn. wsimpl. rewrite nth_updHS_other by lia. auto.
    - rewrite Forall_forall in HV. apply HV. eapply nth_error_In; eauto.
  Qed.

  (** ** The VIP source *)
  Definition consistent (w : W) : Prop := w_heating w = true \/ allOffP w.

  Lemma checkOff_heating i dr w w' : checkOff i dr w = (Ok tt, w') -> w_heating w = true -> w_heating w' = true.
  Proof.
    unfold checkOff. intros E Hh.
    apply bind_inv in E. destruct E as (h & w0 & E0 & E). apply getHS_inv in E0. destruct E0 as [-> E0].
    destruct (h_on h); [|apply ret_inv in E; destruct E as [-> _]; auto].
    apply bind_inv in E. destruct E as (off & w3 & E3 & E). apply askHS_inv in E3. destruct E3 as [-> _].
    destruct off; [|apply ret_inv in E; destruct E as [-> _]; auto].
    apply bind_inv in E. destruct E as ([] & w4 & E4 & E). apply modify_inv in E4.
    assert (Hh4 : w_heating w4 = true) by (subst w4; exact Hh).
    destruct (h_backup h); [|apply ret_inv in E; destruct E as [-> _]; auto].
    apply bind_inv in E. destruct E as (boff & w5 & E5 & E). apply askHS_inv in E5. destruct E5 as [-> _].
    destruct boff; [apply ret_inv in E; destruct E as [-> _]; auto|]. eapply engageHS_heating; eauto.
  Qed.
  Lemma chooseOne_plain dr j w w' b h : nth_error (w_hs w) j = Some h -> h_vip h = false ->
    chooseOne dr j w = (Ok b, w') -> b = false /\ (consistent w -> consistent w').
  Proof.
    intros Ej Ev E. pose proof (pres_Ok _ _ _ _ _ (chooseOne_oframe dr j) E) as HF.
    unfold chooseOne in E. unfold bind at 1, get at 1 in E.
    destruct (w_heating w) eqn:Eh.
    - apply bind_inv in E. destruct E as ([] & w1 & E1 & E).
      apply bind_inv in E. destruct E as (h1 & w0 & E0 & E). apply getHS_inv in E0. destruct E0 as [-> E0].
      pose proof (pres_Ok _ _ _ _ _ (checkOff_oframe j dr) E1) as HF1.
      destruct (oframe_hs _ _ _ _ HF1 Ej) as (h1' & E1' & F1). rewrite E0 in E1'. inversion E1'; subst h1'.
      assert (h_vip h1 = false) by (rewrite F1; exact Ev). rewrite H0 in E. apply ret_inv in E. destruct E as [-> <-].
      split; auto. intros _. left. eapply checkOff_heating; eauto.
    - apply bind_inv in E. destruct E as (need & w3 & E3 & E). apply askHS_inv in E3. destruct E3 as [-> _].
      apply bind_inv in E. destruct E as ([] & w4 & E4 & E). apply ret_inv in E. destruct E as [-> <-].
      split; auto. intros HC. destruct need.
      + left. eapply engageHS_heating; eauto.
      + apply ret_inv in E4. destruct E4 as [-> _]. exact HC.
  Qed.

  Lemma prefix_plain dr l : forall w w',
    (forall j, In j l -> exists h, nth_error (w_hs w) j = Some h /\ h_vip h = false) ->
    forM_break l (chooseOne dr) w = (Ok tt, w') -> consistent w -> consistent w' /\ oframe w w'.
  Proof.
    induction l as [|j l IH]; intros w w' HL E HC; cbn in E.
    - apply ret_inv in E. destruct E as [-> _]. split; auto. apply oframe_refl.
    - apply bind_inv in E. destruct E as (b & w1 & E1 & E).
      destruct (HL j (or_introl eq_refl)) as (h & Ej & Ev).
      destruct (chooseOne_plain _ _ _ _ _ _ Ej Ev E1) as [-> HC1].
      pose proof (pres_Ok _ _ _ _ _ (chooseOne_oframe dr j) E1) as HF.
      edestruct (IH w1 w') as [HC2 HF2]; eauto.
      + intros k Hk. destruct (HL k (or_intror Hk)) as (hk & Ek & Ekv).
        destruct (oframe_hs _ _ _ _ HF Ek) as (hk' & Ek' & Fk). exists hk'. split; auto. rewrite Fk. exact Ekv.
      + split; auto. eapply oframe_trans; eauto.
  Qed.

  Lemma chooseLoop_vip dr i w w' h :
    consistent w -> nth_error (w_hs w) i = Some h -> h_vip h = true -> h_companion h = None ->
    (forall j hj, j <> i -> nth_error (w_hs w) j = Some hj -> h_vip hj = false) ->
    shouldHeat w h = Ok true -> shouldDRLockOut (h_type h) dr = false ->
    chooseLoop dr w = (Ok tt, w') -> w_heating w' = true /\ exactlyOn i w' /\ oframe w w'.
  Proof.
    intros HC E Ev Ec HV HS HD EL.
    pose proof (pres_Ok _ _ _ _ _ (chooseLoop_oframe dr) EL) as HFall.
    assert (HL : (i < numHS w)%nat) by (apply nth_error_Some; congruence).
    unfold chooseLoop in EL. unfold bind at 1, get at 1 in EL. rewrite (seq_split i _ HL) in EL.
    assert (Hpl : forall j, (j < numHS w)%nat -> j <> i -> exists hj, nth_error (w_hs w) j = Some hj /\ h_vip hj = false).
    { intros j Hj HN. destruct (nth_error (w_hs w) j) as [hj|] eqn:Ej; [|apply nth_error_None in Ej; unfold numHS in Hj; lia]. eauto. }
    assert (HP : exists w1, forM_break (seq 0 i) (chooseOne dr) w = (Ok tt, w1) /\ forM_break (i :: seq (S i) (numHS w - S i)) (chooseOne dr) w1 = (Ok tt, w')).
    { revert EL. generalize (i :: seq (S i) (numHS w - S i)). intros r.
      assert (G : forall l v, (forall j, In j l -> exists hj, nth_error (w_hs v) j = Some hj /\ h_vip hj = false) ->
        forM_break (l ++ r) (chooseOne dr) v = (Ok tt, w') ->
        exists w1, forM_break l (chooseOne dr) v = (Ok tt, w1) /\ forM_break r (chooseOne dr) w1 = (Ok tt, w')).
      { induction l as [|j l IH]; intros v Hl E1; cbn in *; [eexists; split; [reflexivity|auto]|].
        unfold bind in *. destruct (chooseOne dr j v) as [[b|e|e|] s] eqn:Ef; try discriminate.
        destruct (Hl j (or_introl eq_refl)) as (hj & Ej & Ejv).
        destruct (chooseOne_plain _ _ _ _ _ _ Ej Ejv Ef) as [-> _].
        apply IH; auto. intros k Hk. destruct (Hl k (or_intror Hk)) as (hk & Ek & Ekv).
        pose proof (pres_Ok _ _ _ _ _ (chooseOne_oframe dr j) Ef) as HF.
        destruct (oframe_hs _ _ _ _ HF Ek) as (hk' & Ek' & Fk). exists hk'. split; auto. rewrite Fk. exact Ekv. }
      apply G. intros j Hj. apply in_seq in Hj. apply Hpl; lia. }
    clear EL. destruct HP as (w1 & EP & EL).
    assert (HQ : consistent w1 /\ oframe w w1).
    { eapply prefix_plain; eauto. intros j Hj. apply in_seq in Hj. apply Hpl; lia. }
    destruct HQ as [HC1 HF1].
    destruct (oframe_hs _ _ _ _ HF1 E) as (h1 & E1 & F1).
    assert (HS1 : shouldHeat w1 h1 = Ok true) by (rewrite (shouldHeat_oframe _ _ _ _ HF1 F1); auto).
    assert (Ev1 : h_vip h1 = true) by (rewrite F1; exact Ev).
    assert (Ec1 : h_companion h1 = None) by (rewrite F1; exact Ec).
    cbn [forM_break] in EL. apply bind_inv in EL. destruct EL as (b & w2 & EI & EL).
    pose proof (pres_Ok _ _ _ _ _ (chooseOne_oframe dr i) EI) as HF2.
    unfold chooseOne in EI. unfold bind at 1, get at 1 in EI.
    destruct (w_heating w1) eqn:Eh1.
    - apply bind_inv in EI. destruct EI as ([] & w3 & E3 & EI).
      pose proof (pres_Ok _ _ _ _ _ (checkOff_oframe i dr) E3) as HF3.
      destruct (oframe_hs _ _ _ _ HF3 E1) as (h3 & E3' & F3).
      apply bind_inv in EI. destruct EI as (h3' & w4 & E4 & EI). apply getHS_inv in E4. destruct E4 as [-> E4].
      rewrite E3' in E4. inversion E4; subst h3'; clear E4.
      assert (Ev3 : h_vip h3 = true) by (rewrite F3; exact Ev1). rewrite Ev3 in EI.
      apply bind_inv in EI. destruct EI as (need & w5 & E5 & EI). apply askHS_inv in E5.
      destruct E5 as [-> (h5 & E5 & Eneed)]. rewrite E3' in E5. inversion E5; subst h5; clear E5.
      rewrite (shouldHeat_oframe _ _ _ _ HF3 F3), HS1 in Eneed. inversion Eneed; subst need; clear Eneed.
      assert (HD3 : shouldDRLockOut (h_type h3) dr = false) by (rewrite F3, F1; exact HD). rewrite HD3 in EI.
      apply bind_inv in EI. destruct EI as ([] & w6 & E6 & EI). apply modify_inv in E6.
      assert (E6' : nth_error (w_hs w6) i = Some (set_h_on false h3)) by (subst w6; wsimpl; rewrite nth_error_map, E3'; reflexivity).
      apply bind_inv in EI. destruct EI as ([] & w7 & E7 & EI).
      rewrite (engageHS_simple i dr w6 _ E6') in E7 by (cbn; rewrite F3; exact Ec1). inversion E7; subst w7; clear E7.
      apply ret_inv in EI. destruct EI as [-> <-]. apply ret_inv in EL. destruct EL as [-> _].
      split; [reflexivity|split; [|exact HFall]].
      eapply exactlyOn_turnOn; eauto. subst w6. unfold allOffP. wsimpl. apply Forall_map. apply Forall_forall. reflexivity.
    - assert (HA1 : allOffP w1) by (destruct HC1; [congruence|auto]).
      apply bind_inv in EI. destruct EI as (need & w5 & E5 & EI). apply askHS_inv in E5.
      destruct E5 as [-> (h5 & E5 & Eneed)]. rewrite E1 in E5. inversion E5; subst h5; clear E5.
      rewrite HS1 in Eneed. inversion Eneed; subst need; clear Eneed. cbn [when] in EI.
      apply bind_inv in EI. destruct EI as ([] & w7 & E7 & EI).
      rewrite (engageHS_simple i dr w1 _ E1 Ec1) in E7. inversion E7; subst w7; clear E7.
      apply ret_inv in EI. destruct EI as [-> <-].
      assert (HX : exactlyOn i (turnOn i w1)) by (eapply exactlyOn_turnOn; eauto).
      rewrite (suffix_stable dr i) in EL; auto.
      + inversion EL; subst w'. split; [reflexivity|split; [exact HX|exact HFall]].
      + intros j Hj. apply in_seq in Hj. split; [lia|].
        destruct (Hpl j) as (hj & Ej & Ejv); try lia.
        destruct (oframe_hs _ _ _ _ HF1 Ej) as (hj1 & Ej1 & Fj1).
        destruct (oframe_hs _ _ _ _ (turnOn_oframe i w1) Ej1) as (hj2 & Ej2 & Fj2).
        exists hj2. split; auto. rewrite Fj2, Fj1. exact Ejv.
  Qed.

  (** ** The signal only matters through its lock-out and top-off bits *)
  Definition sameLocks (dr dr' : Z) : Prop := forall ty, shouldDRLockOut ty dr' = shouldDRLockOut ty dr.
  Definition meq {A} (m m' : M W A) : Prop := forall s, m s = m' s.
  Lemma meq_refl {A} (m : M W A) : meq m m.
  Proof. intros s; reflexivity. Qed.
  Lemma meq_bind {A B} (m m' : M W A) (f f' : A -> M W B) : meq m m' -> (forall a, meq (f a) (f' a)) -> meq (bind m f) (bind m' f').
  Proof. intros H1 H2 s. unfold bind. rewrite H1. destruct (m' s) as [[a|e|e|] s']; auto. apply H2. Qed.
  Lemma meq_if {A} (c : bool) (m m' n n' : M W A) : meq m m' -> meq n n' -> meq (if c then m else n) (if c then m' else n').
  Proof. destruct c; auto. Qed.
  Lemma meq_foldM {A B} (l : list A) (f f' : A -> B -> M W B) : (forall x b, meq (f x b) (f' x b)) -> forall b, meq (foldM l f b) (foldM l f' b).
  Proof. intros HF. induction l; intros b; cbn; [apply meq_refl|]. apply meq_bind; auto. Qed.
  Lemma meq_forM_break {A} (l : list A) (f f' : A -> M W bool) : (forall x, meq (f x) (f' x)) -> meq (forM_break l f) (forM_break l f').
  Proof. intros HF. induction l; cbn; [apply meq_refl|]. apply meq_bind; auto. intros []; auto. apply meq_refl. Qed.

  Section SameLocks.
    Variables (dr dr' : Z).
    Hypothesis HD : sameLocks dr dr'.
    Ltac mq :=
      repeat (rewrite ?HD; first
        [ match goal with |- meq ?m ?m' => constr_eq m m'; apply meq_refl end
        | lazymatch goal with
          | |- meq (bind _ _) (bind _ _) => apply meq_bind; [|intro]
          | |- meq (if ?c then _ else _) (if ?c then _ else _) => destruct c
          | |- meq (match ?c with _ => _ end) (match ?c with _ => _ end) => destruct c
          | |- meq (when ?c _) (when ?c _) => destruct c; cbn [when]
          end ]).
    Lemma engage_eq fuel : forall i, meq (engage fuel i dr') (engage fuel i dr).
    Proof. induction fuel; intros i; cbn [engage]; mq. apply IHfuel. Qed.
    Lemma engageHS_eq i : meq (engageHS i dr') (engageHS i dr).
    Proof. unfold engageHS. mq. apply engage_eq. Qed.
    Lemma engageIx_eq i : meq (engageIx i dr') (engageIx i dr).
    Proof. unfold engageIx. mq. apply engageHS_eq. Qed.
    Lemma checkOff_eq i : meq (checkOff i dr') (checkOff i dr).
    Proof. unfold checkOff. mq. apply engageHS_eq. Qed.
    Lemma chooseOne_eq i : meq (chooseOne dr' i) (chooseOne dr i).
    Proof. unfold chooseOne. mq; try apply checkOff_eq; try apply engageHS_eq; apply engageIx_eq. Qed.
    Lemma chooseLoop_eq : meq (chooseLoop dr') (chooseLoop dr).
    Proof. unfold chooseLoop. mq. apply meq_forM_break. intros; apply chooseOne_eq. Qed.
    Lemma lockOne_eq amb i : meq (lockOne dr' amb i) (lockOne dr amb i).
    Proof. unfold lockOne. mq. Qed.
    Lemma heatTarget_eq amb i : meq (heatTarget dr' amb i) (heatTarget dr amb i).
    Proof. unfold heatTarget. cbv zeta. mq. Qed.
    Lemma runBackup_eq fuel amb m i b : meq (runBackup fuel dr' amb m i b) (runBackup fuel dr amb m i b).
    Proof. unfold runBackup. cbv zeta. mq. apply engageHS_eq. Qed.
    Lemma afterEarly_eq fuel amb m i : meq (afterEarly fuel dr' amb m i) (afterEarly fuel dr amb m i).
    Proof. unfold afterEarly. mq; [apply engageHS_eq|apply runBackup_eq]. Qed.
    Lemma heatOne_eq fuel amb i m : meq (heatOne fuel dr' amb i m) (heatOne fuel dr amb i m).
    Proof. unfold heatOne. cbv zeta. mq; [apply lockOne_eq|apply heatTarget_eq|apply afterEarly_eq]. Qed.
    Lemma heatSources_eq fuel amb : meq (heatSources fuel dr' amb) (heatSources fuel dr amb).
    Proof. unfold heatSources. mq. apply meq_foldM. intros; apply heatOne_eq. Qed.
  End SameLocks.

  (** while the top-off timer runs, a top-off bit has no effect on the control part *)
  Lemma control_timer_running fuel dr dr' amb (w : W) :
    dr_has DR_LOC dr' = dr_has DR_LOC dr -> dr_has DR_LOR dr' = dr_has DR_LOR dr ->
    dr_has DR_TOO dr' = false -> dr_has DR_TOT dr' = false ->
    neqb (w_timer w) (nofZ 0) = false ->
    control fuel dr amb w = control fuel dr' amb w.
  Proof.
    intros H1 H2 H3 H4 H5.
    assert (HD : sameLocks dr dr') by (intros []; cbn; congruence).
    unfold control. rewrite H1, H2. destruct (_ && _)%bool; [reflexivity|].
    assert (E1 : topOff dr w = (Ok tt, w)).
    { unfold topOff. unfold bind at 1, get at 1. rewrite H5, andb_false_r. reflexivity. }
    assert (E2 : topOff dr' w = (Ok tt, w)).
    { unfold topOff. unfold bind at 1, get at 1. rewrite H3, H4. reflexivity. }
    unfold bind at 1. rewrite E1. unfold bind at 2. rewrite E2. symmetry.
    apply meq_bind; [apply chooseLoop_eq; auto|]. intros; apply heatSources_eq; auto.
  Qed.
End ChoiceProofs.
