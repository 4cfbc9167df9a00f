(** What the control and heating code can change, for every number type and every outcome, and the
    decomposition of a step into its phases. *)

From Coq Require Import ZArith List Bool Lia.
From Verif Require Import Num Base Units Types Utils TankM Logic HeatSrc Step FrameProofs.
Import ListNotations.

Lemma pres_weaken {S A} (R1 R2 : S -> S -> Prop) (m : M S A) :
  (forall a b, R1 a b -> R2 a b) -> pres R1 m -> pres R2 m.
Proof. intros H1 H2 s. auto. Qed.

(** bind where the continuation may use a postcondition of the first part *)
Lemma pres_bindQ {S A B} (Rl : S -> S -> Prop) (Rtrans : forall a b c, Rl a b -> Rl b c -> Rl a c)
      (Q : A -> S -> Prop) (m : M S A) (f : A -> M S B) :
  pres Rl m -> tri (fun _ => True) m Q -> (forall a s, Q a s -> Rl s (snd (f a s))) -> pres Rl (bind m f).
Proof.
  intros H1 H2 H3 s. unfold bind. specialize (H1 s). destruct (m s) as [[a|e|e|] s1] eqn:E; cbn in *; auto.
  eapply Rtrans; [exact H1|]. apply H3. eapply H2; eauto.
Qed.

(** inversion of a successful bind *)
Lemma bind_inv {S A B} (m : M S A) (f : A -> M S B) s b s' :
  bind m f s = (Ok b, s') -> exists a s1, m s = (Ok a, s1) /\ f a s1 = (Ok b, s').
Proof. unfold bind. destruct (m s) as [[a|e|e|] s1]; intros E; try discriminate. eauto. Qed.

Lemma Forall2_refl' {A} (P : A -> A -> Prop) l : (forall x, P x x) -> Forall2 P l l.
Proof. intros. induction l; constructor; auto. Qed.
Lemma Forall2_trans' {A} (P : A -> A -> Prop) l1 l2 l3 :
  (forall x y z, P x y -> P y z -> P x z) -> Forall2 P l1 l2 -> Forall2 P l2 l3 -> Forall2 P l1 l3.
Proof.
  intros HP H1; revert l3. induction H1; intros l3 H2; inversion H2; subst; constructor; eauto.
Qed.
Lemma Forall2_nth {A B} (P : A -> B -> Prop) l1 l2 i x :
  Forall2 P l1 l2 -> nth_error l1 i = Some x -> exists y, nth_error l2 i = Some y /\ P x y.
Proof.
  intros H; revert i; induction H; intros [|i] E; cbn in *; try discriminate; [|eauto].
  inversion E; subst; eauto.
Qed.
Lemma Forall2_nth_r {A B} (P : A -> B -> Prop) l1 l2 i y :
  Forall2 P l1 l2 -> nth_error l2 i = Some y -> exists x, nth_error l1 i = Some x /\ P x y.
Proof.
  intros H; revert i; induction H; intros [|i] E; cbn in *; try discriminate; [|eauto].
  inversion E; subst; eauto.
Qed.
Lemma Forall2_impl' {A B} (P Q : A -> B -> Prop) l1 l2 :
  (forall x y, P x y -> Q x y) -> Forall2 P l1 l2 -> Forall2 Q l1 l2.
Proof. intros HI H; induction H; constructor; auto. Qed.
Lemma Forall2_length {A B} (P : A -> B -> Prop) l1 l2 : Forall2 P l1 l2 -> length l1 = length l2.
Proof. intros H; induction H; cbn; auto. Qed.
Lemma Forall2_upd {A} (P : A -> A -> Prop) l i x y :
  (forall z, P z z) -> nth_error l i = Some x -> P x y -> Forall2 P l (upd l i y).
Proof.
  intros HR; revert i; induction l; intros [|i] E HP; cbn in *; try discriminate; constructor; auto.
  - inversion E; subst; auto.
  - apply Forall2_refl'; auto.
Qed.
Lemma Forall2_map_r {A} (P : A -> A -> Prop) (f : A -> A) l : (forall x, P x (f x)) -> Forall2 P l (map f l).
Proof. intros. induction l; constructor; auto. Qed.

Ltac splits := repeat match goal with |- _ /\ _ => split end.

(** projections of updated records *)
Ltac wsimpl :=
  cbn [t_volume t_Ts t_stby t_mixesOnDraw t_mixBelowFrac t_doMix t_doCond t_fixed t_nodeVol t_nodeCp
    t_nodeHeight t_fracTop t_fracSide t_UA t_inlet t_inlet2 t_hasHX t_hxEff t_nodeHxEff t_outletT
    t_fitUA h_type h_on h_locked h_runtime h_eIn h_eOut h_vip h_backup h_companion h_followed h_dist
    h_shrink h_turnOn h_shutOff h_standby h_minT h_maxT h_depresses h_airflow h_extIn h_extOut
    h_lowest h_power h_hyst h_maxSet h_doDefrost h_rdPwr h_rdLift h_rdBelow h_defrost h_mlOut
    h_mlAir h_shxCold h_shxHot h_shxPump h_stbyPwr h_mpFlow h_config h_multipass h_inScale
    h_copScale h_eval w_heating w_setpoint w_setFixed w_tank w_hs w_condIn w_condOut w_extVol w_envE
    w_stbyE w_extraE w_doDepress w_locT w_maxDep w_prevDR w_timer w_timerLimit w_usesSoC w_SoC
    w_targetSoC w_compIx w_lowIx w_highIx w_vipIx w_resMap w_minStep w_secStep w_hrStep w_inletT
    w_haveInletT w_canScale w_storage set_t_volume set_t_Ts set_t_stby set_t_mixesOnDraw
    set_t_mixBelowFrac set_t_doMix set_t_doCond set_t_fixed set_t_nodeVol set_t_nodeCp
    set_t_nodeHeight set_t_fracTop set_t_fracSide set_t_UA set_t_inlet set_t_inlet2 set_t_hasHX
    set_t_hxEff set_t_nodeHxEff set_t_outletT set_t_fitUA set_h_type set_h_on set_h_locked
    set_h_runtime set_h_eIn set_h_eOut set_h_vip set_h_backup set_h_companion set_h_followed
    set_h_dist set_h_shrink set_h_turnOn set_h_shutOff set_h_standby set_h_minT set_h_maxT
    set_h_depresses set_h_airflow set_h_extIn set_h_extOut set_h_lowest set_h_power set_h_hyst
    set_h_maxSet set_h_doDefrost set_h_rdPwr set_h_rdLift set_h_rdBelow set_h_defrost set_h_mlOut
    set_h_mlAir set_h_shxCold set_h_shxHot set_h_shxPump set_h_stbyPwr set_h_mpFlow set_h_config
    set_h_multipass set_h_inScale set_h_copScale set_h_eval set_w_heating set_w_setpoint
    set_w_setFixed set_w_tank set_w_hs set_w_condIn set_w_condOut set_w_extVol set_w_envE
    set_w_stbyE set_w_extraE set_w_doDepress set_w_locT set_w_maxDep set_w_prevDR set_w_timer
    set_w_timerLimit set_w_usesSoC set_w_SoC set_w_targetSoC set_w_compIx set_w_lowIx set_w_highIx
    set_w_vipIx set_w_resMap set_w_minStep set_w_secStep set_w_hrStep set_w_inletT set_w_haveInletT
    set_w_canScale set_w_storage ].
Ltac wsimpl_in H :=
  cbn [t_volume t_Ts t_stby t_mixesOnDraw t_mixBelowFrac t_doMix t_doCond t_fixed t_nodeVol t_nodeCp
    t_nodeHeight t_fracTop t_fracSide t_UA t_inlet t_inlet2 t_hasHX t_hxEff t_nodeHxEff t_outletT
    t_fitUA h_type h_on h_locked h_runtime h_eIn h_eOut h_vip h_backup h_companion h_followed h_dist
    h_shrink h_turnOn h_shutOff h_standby h_minT h_maxT h_depresses h_airflow h_extIn h_extOut
    h_lowest h_power h_hyst h_maxSet h_doDefrost h_rdPwr h_rdLift h_rdBelow h_defrost h_mlOut
    h_mlAir h_shxCold h_shxHot h_shxPump h_stbyPwr h_mpFlow h_config h_multipass h_inScale
    h_copScale h_eval w_heating w_setpoint w_setFixed w_tank w_hs w_condIn w_condOut w_extVol w_envE
    w_stbyE w_extraE w_doDepress w_locT w_maxDep w_prevDR w_timer w_timerLimit w_usesSoC w_SoC
    w_targetSoC w_compIx w_lowIx w_highIx w_vipIx w_resMap w_minStep w_secStep w_hrStep w_inletT
    w_haveInletT w_canScale w_storage set_t_volume set_t_Ts set_t_stby set_t_mixesOnDraw
    set_t_mixBelowFrac set_t_doMix set_t_doCond set_t_fixed set_t_nodeVol set_t_nodeCp
    set_t_nodeHeight set_t_fracTop set_t_fracSide set_t_UA set_t_inlet set_t_inlet2 set_t_hasHX
    set_t_hxEff set_t_nodeHxEff set_t_outletT set_t_fitUA set_h_type set_h_on set_h_locked
    set_h_runtime set_h_eIn set_h_eOut set_h_vip set_h_backup set_h_companion set_h_followed
    set_h_dist set_h_shrink set_h_turnOn set_h_shutOff set_h_standby set_h_minT set_h_maxT
    set_h_depresses set_h_airflow set_h_extIn set_h_extOut set_h_lowest set_h_power set_h_hyst
    set_h_maxSet set_h_doDefrost set_h_rdPwr set_h_rdLift set_h_rdBelow set_h_defrost set_h_mlOut
    set_h_mlAir set_h_shxCold set_h_shxHot set_h_shxPump set_h_stbyPwr set_h_mpFlow set_h_config
    set_h_multipass set_h_inScale set_h_copScale set_h_eval set_w_heating set_w_setpoint
    set_w_setFixed set_w_tank set_w_hs set_w_condIn set_w_condOut set_w_extVol set_w_envE
    set_w_stbyE set_w_extraE set_w_doDepress set_w_locT set_w_maxDep set_w_prevDR set_w_timer
    set_w_timerLimit set_w_usesSoC set_w_SoC set_w_targetSoC set_w_compIx set_w_lowIx set_w_highIx
    set_w_vipIx set_w_resMap set_w_minStep set_w_secStep set_w_hrStep set_w_inletT set_w_haveInletT
    set_w_canScale set_w_storage ] in H.

Section SimFrame.
  Context {T : Type} `{Num T}.
  Notation W := (hpwh T).

  (** a heat source: only the on flag, the lock, run time and energies may differ *)
  Definition hframe (h h' : hsrc T) : Prop :=
    h' = set_h_on (h_on h') (set_h_locked (h_locked h') (set_h_runtime (h_runtime h')
           (set_h_eIn (h_eIn h') (set_h_eOut (h_eOut h') h)))).
  Definition sameE (h h' : hsrc T) : Prop :=
    h_runtime h' = h_runtime h /\ h_eIn h' = h_eIn h /\ h_eOut h' = h_eOut h.
  (** only the on flag and the lock may differ *)
  Definition oframe_h (h h' : hsrc T) : Prop := h' = set_h_on (h_on h') (set_h_locked (h_locked h') h).

  Lemma hframe_refl h : hframe h h.
  Proof. destruct h; reflexivity. Qed.
  Lemma hframe_trans a b c : hframe a b -> hframe b c -> hframe a c.
  Proof. unfold hframe. intros H1 H2. rewrite H2, H1. reflexivity. Qed.
  Lemma oframe_h_refl h : oframe_h h h.
  Proof. destruct h; reflexivity. Qed.
  Lemma oframe_h_trans a b c : oframe_h a b -> oframe_h b c -> oframe_h a c.
  Proof. unfold oframe_h. intros H1 H2. rewrite H2, H1. reflexivity. Qed.
  Lemma oframe_h_hframe h h' : oframe_h h h' -> hframe h h' /\ sameE h h'.
  Proof. unfold oframe_h, hframe, sameE. intros ->. destruct h; cbn. auto. Qed.

  (** the simulator: sources whose type satisfies P keep their run time and energies *)
  Definition cframe (P : hstype -> Prop) (w w' : W) : Prop :=
    Forall2 (fun h h' => hframe h h' /\ (P (h_type h) -> sameE h h')) (w_hs w) (w_hs w') /\
    tframe (w_tank w) (w_tank w') /\
    w' = set_w_heating (w_heating w') (set_w_setpoint (w_setpoint w') (set_w_tank (w_tank w')
           (set_w_hs (w_hs w') (set_w_condIn (w_condIn w') (set_w_condOut (w_condOut w')
             (set_w_extVol (w_extVol w') (set_w_SoC (w_SoC w') w))))))).
  (** only on flags, locks and the heating flag may differ *)
  Definition oframe (w w' : W) : Prop :=
    Forall2 oframe_h (w_hs w) (w_hs w') /\ w' = set_w_heating (w_heating w') (set_w_hs (w_hs w') w).

  Lemma cframe_refl P w : cframe P w w.
  Proof.
    split; [|split; [apply tframe_refl|destruct w; reflexivity]].
    apply Forall2_refl'. intros; split; [apply hframe_refl|]. intros; repeat split.
  Qed.
  Lemma hframe_type h h' : hframe h h' -> h_type h' = h_type h.
  Proof. unfold hframe. intros ->. reflexivity. Qed.
  Lemma cframe_trans P a b c : cframe P a b -> cframe P b c -> cframe P a c.
  Proof.
    intros (H1 & H2 & H3) (H4 & H5 & H6). split; [|split].
    - eapply Forall2_trans'; [|eassumption|eassumption]. cbn. intros x y z [F1 G1] [F2 G2]. split.
      + eapply hframe_trans; eauto.
      + intros HP. destruct (G1 HP) as (A1 & A2 & A3). rewrite <- (hframe_type _ _ F1) in HP.
        destruct (G2 HP) as (B1 & B2 & B3). unfold sameE. repeat split; congruence.
    - eapply tframe_trans; eauto.
    - rewrite H6, H3. reflexivity.
  Qed.
  Lemma oframe_refl w : oframe w w.
  Proof. split; [apply Forall2_refl'; apply oframe_h_refl|destruct w; reflexivity]. Qed.
  Lemma oframe_trans a b c : oframe a b -> oframe b c -> oframe a c.
  Proof.
    intros (H1 & H2) (H3 & H4). split.
    - eapply Forall2_trans'; eauto. apply oframe_h_trans.
    - rewrite H4, H2. reflexivity.
  Qed.
  Lemma oframe_cframe P w w' : oframe w w' -> cframe P w w'.
  Proof.
    intros (H1 & H2). split; [|split].
    - eapply Forall2_impl'; [|eassumption]. intros h h' HO. apply oframe_h_hframe in HO. tauto.
    - rewrite H2. apply tframe_refl.
    - rewrite H2. destruct w; reflexivity.
  Qed.
  Lemma cframe_weaken (P Q : hstype -> Prop) w w' : (forall t, Q t -> P t) -> cframe P w w' -> cframe Q w w'.
  Proof.
    intros HI (H1 & H2 & H3). split; [|auto]. eapply Forall2_impl'; [|eassumption]. intros h h' [A B]. split; auto.
  Qed.

  (** ** Consequences *)
  Lemma cframe_hs P w w' i h : cframe P w w' -> nth_error (w_hs w) i = Some h ->
    exists h', nth_error (w_hs w') i = Some h' /\ hframe h h' /\ (P (h_type h) -> sameE h h').
  Proof. intros (H1 & _) E. destruct (Forall2_nth _ _ _ _ _ H1 E) as (y & E1 & E2). eauto. Qed.
  Lemma cframe_hs_r P w w' i h' : cframe P w w' -> nth_error (w_hs w') i = Some h' ->
    exists h, nth_error (w_hs w) i = Some h /\ hframe h h' /\ (P (h_type h) -> sameE h h').
  Proof. intros (H1 & _) E. destruct (Forall2_nth_r _ _ _ _ _ H1 E) as (y & E1 & E2). eauto. Qed.
  Lemma cframe_len P w w' : cframe P w w' -> length (w_hs w') = length (w_hs w).
  Proof. intros (H1 & _). symmetry. eapply Forall2_length; eauto. Qed.
  Lemma oframe_len w w' : oframe w w' -> length (w_hs w') = length (w_hs w).
  Proof. intros (H1 & _). symmetry. eapply Forall2_length; eauto. Qed.
  Lemma oframe_hs w w' i h : oframe w w' -> nth_error (w_hs w) i = Some h ->
    exists h', nth_error (w_hs w') i = Some h' /\ oframe_h h h'.
  Proof. intros (H1 & _) E. exact (Forall2_nth _ _ _ _ _ H1 E). Qed.
  Lemma oframe_hs_r w w' i h' : oframe w w' -> nth_error (w_hs w') i = Some h' ->
    exists h, nth_error (w_hs w) i = Some h /\ oframe_h h h'.
  Proof. intros (H1 & _) E. exact (Forall2_nth_r _ _ _ _ _ H1 E). Qed.

  (** ** Basic actions *)
  Lemma getHS_pres (Rl : W -> W -> Prop) (Rr : forall s, Rl s s) i : pres Rl (getHS i).
  Proof. intros w. unfold getHS. destruct (nth_error _ _); apply Rr. Qed.
  Lemma askHS_pres (Rl : W -> W -> Prop) (Rr : forall s, Rl s s) {A} i (q : W -> hsrc T -> outc A) : pres Rl (askHS i q).
  Proof.
    intros w. unfold askHS, getHS, bind, get, lift. destruct (nth_error _ _); apply Rr.
  Qed.
  Lemma updHS_F2 (P : hsrc T -> hsrc T -> Prop) hs i f :
    (forall h, P h h) -> (forall h, nth_error hs i = Some h -> P h (f h)) -> Forall2 P hs (updHS hs i f).
  Proof.
    intros HR HP. unfold updHS. destruct (nth_error hs i) eqn:E; [|apply Forall2_refl'; auto].
    eapply Forall2_upd; eauto.
  Qed.
  Lemma modHS_oframe i f : (forall h, oframe_h h (f h)) -> pres oframe (modHS i f).
  Proof.
    intros HF w. split; [|reflexivity]. apply updHS_F2; auto. apply oframe_h_refl.
  Qed.
  Lemma getHS_tri i : tri (fun _ => True) (getHS i) (fun h (w : W) => nth_error (w_hs w) i = Some h).
  Proof.
    intros w h w' _ E. unfold getHS in E. destruct (nth_error (w_hs w) i) eqn:E1; inversion E; subst; auto.
  Qed.
  Lemma getHS_inv i (w : W) h w' : getHS i w = (Ok h, w') -> w' = w /\ nth_error (w_hs w) i = Some h.
  Proof. unfold getHS. destruct (nth_error (w_hs w) i); intros E; inversion E; subst; auto. Qed.
  Lemma askHS_inv {A} i (q : W -> hsrc T -> outc A) (w : W) a w' :
    askHS i q w = (Ok a, w') -> w' = w /\ exists h, nth_error (w_hs w) i = Some h /\ q w h = Ok a.
  Proof.
    unfold askHS, getHS, bind, get, lift. destruct (nth_error (w_hs w) i); intros E; inversion E; subst; eauto.
  Qed.

  Lemma set_on_oframe b h : oframe_h h (set_h_on b h).
  Proof. destruct h; reflexivity. Qed.
  Lemma set_locked_oframe b h : oframe_h h (set_h_locked b h).
  Proof. destruct h; reflexivity. Qed.
  Lemma set_heating_oframe b (w : W) : oframe w (set_w_heating b w).
  Proof. split; [apply Forall2_refl'; apply oframe_h_refl|destruct w; reflexivity]. Qed.
  Lemma turnAllOff_oframe : pres oframe (turnAllOff (T:=T)).
  Proof.
    intros w. split; [|destruct w; reflexivity]. apply Forall2_map_r. apply set_on_oframe.
  Qed.

  (** one syntactic step on [pres Rl m] *)
  Ltac pstep Rl Rr Rt :=
    lazymatch goal with
    | |- pres _ (ret _) => apply (pres_ret Rl Rr)
    | |- pres _ (throw _) => apply (pres_throw Rl Rr)
    | |- pres _ (undef _) => apply (pres_undef Rl Rr)
    | |- pres _ nofuel => apply (pres_nofuel Rl Rr)
    | |- pres _ get => apply (pres_get Rl Rr)
    | |- pres _ (lift _) => apply (pres_lift Rl Rr)
    | |- pres _ (getHS _) => apply (getHS_pres Rl Rr)
    | |- pres _ (askHS _ _) => apply (askHS_pres Rl Rr)
    | |- pres _ (when _ _) => apply (pres_when Rl Rr)
    | |- pres _ (bind _ _) => apply (pres_bind Rl Rt); [|intro]
    | |- pres _ (if ?c then _ else _) => destruct c
    | |- pres _ (match ?c with _ => _ end) => destruct c
    end.
  Ltac op :=
    repeat first
      [ pstep oframe oframe_refl oframe_trans
      | lazymatch goal with
        | |- pres _ (modHS _ _) => apply modHS_oframe; intro; first [apply set_on_oframe | apply set_locked_oframe]
        | |- pres _ turnAllOff => apply turnAllOff_oframe
        | |- pres _ (modify _) => apply (pres_modify oframe); intro; apply set_heating_oframe
        end ].

  Lemma engage_oframe dr fuel : forall i, pres oframe (engage fuel i dr).
  Proof. induction fuel; intros i; cbn [engage]; op. auto. Qed.
  Lemma engageHS_oframe i dr : pres oframe (engageHS i dr).
  Proof. unfold engageHS. op. apply engage_oframe. Qed.
  Lemma engageIx_oframe ix dr : pres oframe (engageIx ix dr).
  Proof. unfold engageIx. op. apply engageHS_oframe. Qed.
  Lemma disengage_oframe i : pres oframe (disengage i).
  Proof. unfold disengage. op. Qed.
  Lemma topOff_oframe dr : pres oframe (topOff dr).
  Proof. unfold topOff. op; apply engageIx_oframe. Qed.
  Lemma checkOff_oframe i dr : pres oframe (checkOff i dr).
  Proof. unfold checkOff. op; try apply disengage_oframe; apply engageHS_oframe. Qed.
  Lemma chooseOne_oframe dr i : pres oframe (chooseOne dr i).
  Proof.
    unfold chooseOne. op; try apply checkOff_oframe; try apply engageIx_oframe; apply engageHS_oframe.
  Qed.
  Lemma chooseLoop_oframe dr : pres oframe (chooseLoop dr).
  Proof.
    unfold chooseLoop. op. apply (pres_forM_break oframe oframe_refl oframe_trans). apply chooseOne_oframe.
  Qed.
  Lemma toLock_oframe i amb : pres oframe (toLockOrUnlock i amb).
  Proof. unfold toLockOrUnlock. op. Qed.
  Lemma lockOne_oframe dr amb i : pres oframe (lockOne dr amb i).
  Proof. unfold lockOne. op; try apply toLock_oframe; apply disengage_oframe. Qed.
  Lemma heatTarget_oframe dr amb i : pres oframe (heatTarget dr amb i).
  Proof. unfold heatTarget, resLock. op; apply toLock_oframe. Qed.

  (** ** Heating *)

  (** source i may change its energies; others of the types in P may not *)
  Definition okI (P : hstype -> Prop) (i : nat) (w : W) : Prop :=
    forall h, nth_error (w_hs w) i = Some h -> ~ P (h_type h).
  Lemma okI_cframe P i w w' : cframe P w w' -> okI P i w -> okI P i w'.
  Proof.
    intros HC HO h' E. destruct (cframe_hs_r _ _ _ _ _ HC E) as (h & E1 & F & _).
    rewrite (hframe_type _ _ F). auto.
  Qed.
  Definition gframe (P : hstype -> Prop) (i : nat) (w w' : W) : Prop := okI P i w -> cframe P w w'.
  Lemma gframe_refl P i w : gframe P i w w.
  Proof. intros _. apply cframe_refl. Qed.
  Lemma gframe_trans P i a b c : gframe P i a b -> gframe P i b c -> gframe P i a c.
  Proof. intros H1 H2 HO. eapply cframe_trans; eauto. apply H2. eapply okI_cframe; eauto. Qed.
  Lemma cframe_gframe P i {A} (m : M W A) : pres (cframe P) m -> pres (gframe P i) m.
  Proof. intros HP s _. apply HP. Qed.
  Lemma oframe_pres_cframe P {A} (m : M W A) : pres oframe m -> pres (cframe P) m.
  Proof. apply pres_weaken. apply oframe_cframe. Qed.

  Lemma modHS_gframe P i f : (forall h, hframe h (f h)) -> pres (gframe P i) (modHS i f).
  Proof.
    intros HF w HO. split; [|split; [apply tframe_refl|destruct w; reflexivity]].
    apply updHS_F2.
    - intros h; split; [apply hframe_refl|]. repeat split.
    - intros h E. split; auto. intros HP. destruct (HO h E HP).
  Qed.

  Ltac eqframe := intros; split; [apply Forall2_refl'; intros; split; [apply hframe_refl|repeat split]
                                 |split; [first [apply tframe_refl|idtac]|try (match goal with w : hpwh T |- _ => destruct w end; reflexivity)]].

  Lemma cframe_condIn P v (w : W) : cframe P w (set_w_condIn v w).
  Proof. eqframe. Qed.
  Lemma cframe_condOut P v (w : W) : cframe P w (set_w_condOut v w).
  Proof. eqframe. Qed.
  Lemma cframe_extVol P v (w : W) : cframe P w (set_w_extVol v w).
  Proof. eqframe. Qed.
  Lemma cframe_SoC P v (w : W) : cframe P w (set_w_SoC v w).
  Proof. eqframe. Qed.
  Lemma cframe_setpoint P v (w : W) : cframe P w (set_w_setpoint v w).
  Proof. eqframe. Qed.
  Lemma cframe_tank P t (w : W) : tframe (w_tank w) t -> cframe P w (set_w_tank t w).
  Proof. intros HF. eqframe. exact HF. Qed.
  Lemma cframe_Ts P Ts (w : W) : length Ts = length (t_Ts (w_tank w)) -> cframe P w (set_w_tank (set_t_Ts Ts (w_tank w)) w).
  Proof. intros. apply cframe_tank. apply tframe_Ts. auto. Qed.
  Lemma onTank_cframe P {A} (m : M (tank T) A) : pres tframe m -> pres (cframe P) (onTank m).
  Proof.
    intros HP w. unfold onTank. specialize (HP (w_tank w)). destruct (m (w_tank w)) as [r t]. cbn in *.
    apply cframe_tank. auto.
  Qed.

  Lemma heatLoop_len cp cap mw mt dist k : forall lft Ts, length (snd (heatLoop cp cap mw mt dist k lft Ts)) = length Ts.
  Proof.
    induction k; intros lft Ts; cbn [heatLoop]; auto.
    destruct (nltb _ _); auto.
    match goal with |- context [addHeatAboveNode_list ?a ?b ?c ?d ?e] =>
      assert (HL : length (snd (addHeatAboveNode_list a b c d e)) = length e) by apply addHeatLoop_len;
      destruct (addHeatAboveNode_list a b c d e) end.
    rewrite IHk. exact HL.
  Qed.
  Lemma shiftUp_len f tg cnt : forall k Ts, length (shiftUp f tg k cnt Ts) = length Ts.
  Proof. induction cnt; intros k Ts; cbn [shiftUp]; auto. rewrite IHcnt, upd_length. reflexivity. Qed.
  Lemma mixNodes_len a b f Ts : length (mixNodes_list a b f Ts) = length Ts.
  Proof. apply mapi_len. Qed.

  Ltac cp P :=
    repeat first
      [ pstep (cframe P) (cframe_refl P) (cframe_trans P)
      | lazymatch goal with
        | |- pres _ (modify _) =>
          apply (pres_modify (cframe P)); intro;
          first [apply cframe_condIn | apply cframe_condOut | apply cframe_extVol | apply cframe_SoC
                | apply cframe_setpoint
                | eapply cframe_trans; [apply cframe_condIn|apply cframe_condOut]
                | apply cframe_Ts; first [apply shiftUp_len | apply mixNodes_len] ]
        end ].
  Lemma updateSoC_cframe P : pres (cframe P) (updateSoC (T:=T)).
  Proof. unfold updateSoC. cp P. Qed.
  Lemma setSetpointC_cframe P v : pres (cframe P) (setSetpointC v).
  Proof. unfold setSetpointC. cp P. Qed.
  Lemma heatNodes_cframe P fuel h cap mx : pres (cframe P) (heatNodes fuel h cap mx).
  Proof.
    intros w. unfold heatNodes. unfold bind at 1, get at 1. cbv beta iota.
    destruct (calcHeatDist fuel w h) as [dist|e|e|]; cbn; try apply cframe_refl.
    destruct (maxElement dist) as [mw|e|e|]; cbn; try apply cframe_refl.
    destruct (ndivok mw); [|apply cframe_refl].
    match goal with |- context [if ?c then undef _ else _] => destruct c end; [apply cframe_refl|].
    match goal with |- context [heatLoop ?a ?b ?c ?d ?e ?f ?g ?i] =>
      pose proof (heatLoop_len a b c d e f g i) as HL; destruct (heatLoop a b c d e f g i) end.
    cbn in *. apply cframe_Ts. auto.
  Qed.
  Ltac gp P i :=
    repeat first
      [ pstep (gframe P i) (gframe_refl P i) (gframe_trans P i)
      | lazymatch goal with
        | |- pres _ (heatNodes _ _ _ _) => apply cframe_gframe; apply heatNodes_cframe
        | |- pres _ (modify _) => apply cframe_gframe; apply pres_modify; intro; first [apply cframe_condIn | apply cframe_condOut]
        | |- pres _ (modHS _ _) => apply modHS_gframe; intros []; reflexivity
        end ].

  Lemma extLoopSP_cframe P mf i ext st fuel : forall a, pres (cframe P) (extLoopSP fuel mf i ext st a).
  Proof.
    induction fuel; intros a; cbn [extLoopSP]; cp P; auto;
      first [apply onTank_cframe; apply mixInversions_frame | apply updateSoC_cframe].
  Qed.
  Lemma extLoopMP_cframe P mf i ext fuel : forall a, pres (cframe P) (extLoopMP fuel mf i ext a).
  Proof.
    induction fuel; intros a; cbn [extLoopMP]; [cp P|].
    apply (pres_bind (cframe P) (cframe_trans P)); [cp P|]. intros h.
    intros w. unfold bind at 1, get at 1. cbv beta iota zeta. revert w.
    match goal with |- forall w, cframe P w (snd (bind (modify ?f) ?k w)) => idtac end.
    intros w.
    apply (pres_bind_at (cframe P) (cframe_trans P)).
    - cbn. apply cframe_Ts. apply mixNodes_len.
    - intros []. cp P; auto; first [apply onTank_cframe; apply mixInversions_frame | apply updateSoC_cframe].
  Qed.
  Lemma extFinish_cframe P st a : pres (cframe P) (extFinish st a).
  Proof. unfold extFinish. cp P. Qed.

  Lemma eOutIn_hframe h a b : hframe h (set_h_eOut a (set_h_eIn b h)).
  Proof. destruct h; reflexivity. Qed.
  Lemma addHeatRes_gframe P fuel i m : pres (gframe P i) (addHeatRes fuel i m).
  Proof. unfold addHeatRes. gp P i. Qed.
  Lemma addHeatIntegrated_gframe P fuel i ext m : pres (gframe P i) (addHeatIntegrated fuel i ext m).
  Proof. unfold addHeatIntegrated. gp P i. Qed.
  Lemma addHeatCond_gframe P fuel i ext m : pres (gframe P i) (addHeatCond fuel i ext m).
  Proof.
    unfold addHeatCond.
    apply (pres_bind (gframe P i) (gframe_trans P i)); [apply (getHS_pres _ (gframe_refl P i))|]. intros h.
    destruct (h_config h); try apply addHeatIntegrated_gframe.
    apply (pres_bind (gframe P i) (gframe_trans P i)).
    - apply cframe_gframe. destruct (h_multipass h).
      + unfold addHeatExternalMP. apply (pres_bind (cframe P) (cframe_trans P)); [apply extLoopMP_cframe|].
        intros; apply extFinish_cframe.
      + unfold addHeatExternal. cp P; [apply extLoopSP_cframe|apply extFinish_cframe].
    - intros [rt p]. apply modHS_gframe. intros []; reflexivity.
  Qed.
  Lemma addHeatParent_gframe P fuel i amb m : pres (gframe P i) (addHeatParent fuel i amb m).
  Proof.
    unfold addHeatParent.
    apply (pres_bind (gframe P i) (gframe_trans P i)); [apply (getHS_pres _ (gframe_refl P i))|]. intros h.
    destruct (h_type h); [|apply addHeatRes_gframe]. cbv zeta.
    gp P i; try (apply cframe_gframe; apply setSetpointC_cframe). apply addHeatCond_gframe.
  Qed.
  (** without restriction on the types *)
  Definition noP : hstype -> Prop := fun _ => False.
  Lemma addHeatParent_cframe fuel i amb m : pres (cframe noP) (addHeatParent fuel i amb m).
  Proof. intros w. apply addHeatParent_gframe. intros h _ []. Qed.
  Lemma runBackup_cframe fuel dr amb m i b : pres (cframe noP) (runBackup fuel dr amb m i b).
  Proof.
    unfold runBackup, resLock. cp noP; try (apply oframe_pres_cframe; first [apply toLock_oframe | apply engageHS_oframe]).
    apply addHeatParent_cframe.
  Qed.
  Lemma afterEarly_cframe fuel dr amb m i : pres (cframe noP) (afterEarly fuel dr amb m i).
  Proof.
    unfold afterEarly. cp noP; try (apply oframe_pres_cframe; first [apply disengage_oframe | apply engageHS_oframe]).
    apply runBackup_cframe.
  Qed.
  Lemma heatOne_cframe fuel dr amb i m : pres (cframe noP) (heatOne fuel dr amb i m).
  Proof.
    unfold heatOne. cp noP; try (apply oframe_pres_cframe; first [apply lockOne_oframe | apply heatTarget_oframe]).
    - apply addHeatParent_cframe.
    - apply afterEarly_cframe.
  Qed.
  Lemma heatSources_cframe fuel dr amb : pres (cframe noP) (heatSources fuel dr amb).
  Proof.
    unfold heatSources. cp noP. apply (pres_foldM (cframe noP) (cframe_refl noP) (cframe_trans noP)).
    intros; apply heatOne_cframe.
  Qed.
  Lemma control_cframe fuel dr amb : pres (cframe noP) (control fuel dr amb).
  Proof.
    unfold control. cp noP; try (apply oframe_pres_cframe;
      first [apply turnAllOff_oframe | apply topOff_oframe | apply chooseLoop_oframe]).
    apply heatSources_cframe.
  Qed.

  (** ** Phases of a step *)

  (** the tank at the start of a step, outputs reset *)
  Definition resetTank (w : W) : tank T := set_t_stby (nofZ 0) (set_t_outletT (nofZ 0) (w_tank w)).
  Definition resetHS (h : hsrc T) : hsrc T := set_h_eOut (nofZ 0) (set_h_eIn (nofZ 0) (set_h_runtime (nofZ 0) h)).
  (** state before the control part: outputs reset, ambient chosen, draw and losses done *)
  Definition preControl (fuel : nat) (x : stepIn) (w w1 : W) (hsAmb : T) : Prop :=
    exists l t sc,
      w1 = set_w_SoC sc (set_w_tank t (set_w_locT l (stepReset w))) /\
      l = (if w_doDepress w
           then (if neqb (w_locT w) UNINITIALIZED_LOCATIONTEMP then i_amb x else w_locT w)
           else w_locT w) /\
      hsAmb = (if w_doDepress w then l else i_ext x) /\
      updateNodes fuel (w_hrStep w) (w_secStep w) (i_draw x) (w_inletT w)
               (if w_doDepress w then l else i_amb x) (i_vol2 x) (i_inT2 x)
               (resetTank w) = (Ok tt, t) /\
      (w_doDepress w && nneqb (w_minStep w) (nofZ 1))%bool = false /\
      updateSoC (set_w_tank t (set_w_locT l (stepReset w))) = (Ok tt, w1).

  Lemma set_w_locT_same (w : W) : set_w_locT (w_locT w) w = w.
  Proof. destruct w; reflexivity. Qed.
  Lemma set_w_tank_same t (w : W) : w_tank (set_w_tank t w) = t.
  Proof. destruct w; reflexivity. Qed.

  Lemma onTank_inv {A} (m : M (tank T) A) (w : W) a w' :
    onTank m w = (Ok a, w') -> exists t', m (w_tank w) = (Ok a, t') /\ w' = set_w_tank t' w.
  Proof. unfold onTank. destruct (m (w_tank w)) as [r t]. intros E; inversion E; subst. eauto. Qed.
  Lemma updateSoC_inv (w w' : W) : updateSoC w = (Ok tt, w') -> w' = set_w_SoC (w_SoC w') w.
  Proof.
    unfold updateSoC, bind, get, lift, modify, ret. destruct (w_usesSoC w).
    - destruct (calcSoC w); intros E; inversion E; subst. destruct w; reflexivity.
    - intros E; inversion E; subst. destruct w'; reflexivity.
  Qed.

  Definition afterControl (w : W) : W := if allOff w then set_w_heating false w else w.

  Lemma stepAmbient_inv x (w wa : W) ta ha : stepAmbient x w = (Ok (ta, ha), wa) ->
    exists l, wa = set_w_locT l w /\
      l = (if w_doDepress w
           then (if neqb (w_locT w) UNINITIALIZED_LOCATIONTEMP then i_amb x else w_locT w)
           else w_locT w) /\
      ta = (if w_doDepress w then l else i_amb x) /\ ha = (if w_doDepress w then l else i_ext x).
  Proof.
    intros Ea. unfold stepAmbient in Ea. unfold bind at 1, get at 1 in Ea. cbv beta iota in Ea.
    pose proof (set_w_locT_same w) as Hs.
    destruct (w_doDepress w).
    - unfold bind, when, modify, get, ret in Ea.
      destruct (neqb _ _).
      + inversion Ea; subst. exists (i_amb x). auto.
      + inversion Ea; subst. exists (w_locT wa). auto.
    - inversion Ea; subst. exists (w_locT wa). auto.
  Qed.

  Lemma runOneStep_inv0 fuel x (w w' : W) : runOneStep fuel x w = (Ok tt, w') ->
    exists wa wb w1 w2 w3 ta ha,
      (w_doDepress w && nneqb (w_minStep w) (nofZ 1))%bool = false /\
      stepAmbient x (stepReset w) = (Ok (ta, ha), wa) /\
      onTank (updateNodes fuel (w_hrStep wa) (w_secStep wa) (i_draw x) (w_inletT wa) ta (i_vol2 x) (i_inT2 x)) wa = (Ok tt, wb) /\
      updateSoC wb = (Ok tt, w1) /\
      control fuel (i_dr x) ha w1 = (Ok tt, w2) /\
      stepExtra fuel x (afterControl w2) = (Ok tt, w3) /\
      w' = stepTimer (i_dr x) (stepSettle (stepDepress (i_amb x) w3)).
  Proof.
    unfold runOneStep. intros E.
    apply bind_inv in E. destruct E as (wx & wy & E0 & E). inversion E0; subst wx wy; clear E0.
    destruct (w_doDepress w && _)%bool eqn:Emin; [discriminate|].
    apply bind_inv in E. destruct E as ([] & wz & E0 & E). inversion E0; subst wz; clear E0.
    apply bind_inv in E. destruct E as ([ta ha] & wa & Ea & E).
    apply bind_inv in E. destruct E as (wx & wy & E0 & E). inversion E0; subst wx wy; clear E0.
    apply bind_inv in E. destruct E as ([] & wb & Eb & E).
    apply bind_inv in E. destruct E as ([] & w1 & Ec & E).
    apply bind_inv in E. destruct E as ([] & w2 & Ed & E).
    apply bind_inv in E. destruct E as ([] & wz & E0 & E). inversion E0; subst wz; clear E0.
    apply bind_inv in E. destruct E as ([] & w3 & Ee & E).
    apply bind_inv in E. destruct E as ([] & wz & E0 & E). inversion E0; subst wz; clear E0.
    apply bind_inv in E. destruct E as ([] & wz & E0 & E). inversion E0; subst wz; clear E0.
    inversion E; subst w'; clear E.
    exists wa, wb, w1, w2, w3, ta, ha. splits; auto.
  Qed.

  Lemma runOneStep_inv fuel x (w w' : W) : runOneStep fuel x w = (Ok tt, w') ->
    exists w1 w2 w3 hsAmb,
      preControl fuel x w w1 hsAmb /\
      control fuel (i_dr x) hsAmb w1 = (Ok tt, w2) /\
      stepExtra fuel x (afterControl w2) = (Ok tt, w3) /\
      w' = stepTimer (i_dr x) (stepSettle (stepDepress (i_amb x) w3)).
  Proof.
    intros E. apply runOneStep_inv0 in E.
    destruct E as (wa & wb & w1 & w2 & w3 & ta & ha & Emin & Ea & Eb & Ec & Ed & Ee & Ef).
    apply onTank_inv in Eb. destruct Eb as (t' & Eb & ->).
    pose proof Ec as Eu. apply updateSoC_inv in Ec.
    exists w1, w2, w3, ha. split; [|auto].
    apply stepAmbient_inv in Ea. destruct Ea as (l & HA1 & HA2 & HA3 & HA4).
    change (w_doDepress (stepReset w)) with (w_doDepress w) in *.
    change (w_locT (stepReset w)) with (w_locT w) in *.
    exists l, t', (w_SoC w1). split; [|split; [exact HA2|split; [exact HA4|split; [|split; [exact Emin|]]]]].
    - rewrite Ec at 1. rewrite HA1. reflexivity.
    - rewrite <- HA3. rewrite HA1 in Eb. exact Eb.
    - rewrite HA1 in Eu. exact Eu.
  Qed.

  Lemma preControl_fun fuel x (w w1 v1 : W) a b : preControl fuel x w w1 a -> preControl fuel x w v1 b -> v1 = w1 /\ b = a.
  Proof.
    intros (l & t & sc & _ & E2 & E3 & E4 & _ & E5) (l' & t' & sc' & _ & E2' & E3' & E4' & _ & E5').
    rewrite <- E2 in E2'. rewrite E2' in *. rewrite E4 in E4'. inversion E4'; subst t'.
    rewrite E5 in E5'. inversion E5'; subst. auto.
  Qed.
  Lemma preControl_hs fuel x (w w1 : W) a : preControl fuel x w w1 a -> w_hs w1 = map resetHS (w_hs w).
  Proof. intros (l & t & sc & -> & _). reflexivity. Qed.
  Lemma preControl_tank fuel x (w w1 : W) a : preControl fuel x w w1 a -> tframe (w_tank w) (w_tank w1).
  Proof.
    intros (l & t & sc & -> & _ & _ & E & _). wsimpl.
    eapply tframe_trans; [apply (tframe_outlet _ (nofZ 0))|].
    eapply tframe_trans; [apply (tframe_stby _ (nofZ 0))|].
    change t with (snd (@Ok unit tt, t)). rewrite <- E. apply updateNodes_frame.
  Qed.
  (** everything but outputs, temperatures, location temperature and state of charge is as before *)
  Lemma preControl_eq fuel x (w w1 : W) a : preControl fuel x w w1 a ->
    w1 = set_w_SoC (w_SoC w1) (set_w_tank (w_tank w1) (set_w_hs (w_hs w1) (set_w_locT (w_locT w1)
           (set_w_extraE (nofZ 0) (set_w_stbyE (nofZ 0) (set_w_envE (nofZ 0) (set_w_extVol (nofZ 0)
              (set_w_condOut (nofZ 0) (set_w_condIn (nofZ 0) w))))))))).
  Proof. intros (l & t & sc & -> & _). reflexivity. Qed.

  (** the later phases do not touch what the control part decided *)
  Lemma extraLoop_cframe P dist m k : forall tot, pres (cframe P) (extraLoop dist m k tot).
  Proof.
    induction k; intros tot; cbn [extraLoop]; cp P; auto.
    apply onTank_cframe. apply addExtraHeatAboveNode_frame.
  Qed.
  Lemma stepExtra_frame fuel x (w w' : W) : stepExtra fuel x w = (Ok tt, w') ->
    w_hs w' = w_hs w /\ tframe (w_tank w) (w_tank w') /\
    w' = set_w_extraE (w_extraE w') (set_w_tank (w_tank w') (set_w_SoC (w_SoC w') w)).
  Proof.
    assert (HX : forall dist m k tot s r s', extraLoop dist m k tot s = (r, s') ->
      w_hs s' = w_hs s /\ tframe (w_tank s) (w_tank s') /\ s' = set_w_tank (w_tank s') s).
    { intros dist m k. induction k; intros tot s r s' E; cbn [extraLoop] in E.
      - inversion E; subst. repeat split; auto; try apply tframe_refl; destruct s'; reflexivity.
      - destruct (nneqb _ _); [|eauto].
        unfold bind in E. unfold onTank at 1 in E. unfold addExtraHeatAboveNode in E at 1. cbn in E.
        apply IHk in E. destruct E as (E1 & E2 & E3). repeat split.
        + rewrite E1. destruct s; reflexivity.
        + destruct E2 as [E2 _]. rewrite E2. destruct s; cbn. apply addExtraLoop_len.
        + destruct E2 as [_ E2]. rewrite E2. destruct s; reflexivity.
        + rewrite E3. destruct s; reflexivity. }
    unfold stepExtra. destruct (i_extra x) as [[|e r]|];
      try (intros E; inversion E; subst; repeat split; auto; try apply tframe_refl; destruct w'; reflexivity).
    intros E. apply bind_inv in E. destruct E as ([] & wa & Ea & Eb). apply updateSoC_inv in Eb.
    unfold addExtraHeat in Ea. unfold bind at 1, get at 1 in Ea. cbv beta iota in Ea.
    apply bind_inv in Ea. destruct Ea as (d1 & s1 & E1 & Ea). inversion E1; subst s1; clear E1.
    apply bind_inv in Ea. destruct Ea as (d2 & s2 & E2 & Ea). inversion E2; subst s2; clear E2.
    apply bind_inv in Ea. destruct Ea as (tot & s3 & E3 & Ea). apply HX in E3. destruct E3 as (F1 & F2 & F3).
    inversion Ea; subst wa; clear Ea. rewrite Eb. repeat split.
    - rewrite <- F1. destruct s3; reflexivity.
    - destruct F2 as [F2 _]. rewrite <- F2. destruct s3; reflexivity.
    - destruct F2 as [_ F2]. destruct s3; exact F2.
    - cbn. rewrite F3 at 1. destruct w; destruct s3; reflexivity.
  Qed.

  Lemma stepSettle_hs (w : W) : w_hs (stepSettle w) = map (settleHS (w_minStep w)) (w_hs w).
  Proof. destruct w; reflexivity. Qed.
  Lemma stepDepress_hs g (w : W) : w_hs (stepDepress g w) = w_hs w /\ w_minStep (stepDepress g w) = w_minStep w
    /\ w_tank (stepDepress g w) = w_tank w /\ w_heating (stepDepress g w) = w_heating w.
  Proof. unfold stepDepress. destruct (w_doDepress w); destruct w; auto. Qed.
  Lemma stepTimer_hs dr (w : W) : w_hs (stepTimer dr w) = w_hs w /\ w_tank (stepTimer dr w) = w_tank w
    /\ w_heating (stepTimer dr w) = w_heating w.
  Proof. unfold stepTimer. destruct (_ && _)%bool; [|destruct (_ && _)%bool]; destruct w; auto. Qed.
  Lemma afterControl_hs (w : W) : w_hs (afterControl w) = w_hs w /\ w_tank (afterControl w) = w_tank w /\ w_minStep (afterControl w) = w_minStep w.
  Proof. unfold afterControl. destruct (allOff w); destruct w; auto. Qed.
  Lemma stepReset_hs (w : W) : w_hs (stepReset w) =
    map (fun h => set_h_eOut (nofZ 0) (set_h_eIn (nofZ 0) (set_h_runtime (nofZ 0) h))) (w_hs w).
  Proof. destruct w; reflexivity. Qed.

  (** heat sources after a step: those after the control part, settled *)
  Lemma step_hs fuel x (w w' : W) : runOneStep fuel x w = (Ok tt, w') ->
    exists w1 w2 hsAmb, preControl fuel x w w1 hsAmb /\ control fuel (i_dr x) hsAmb w1 = (Ok tt, w2) /\
      w_hs w' = map (settleHS (w_minStep w)) (w_hs w2) /\ w_heating w' = w_heating (afterControl w2).
  Proof.
    intros E. apply runOneStep_inv in E. destruct E as (w1 & w2 & w3 & a & HP & HC & HE & ->).
    exists w1, w2, a. split; [auto|]. split; [auto|].
    destruct (stepTimer_hs (i_dr x) (stepSettle (stepDepress (i_amb x) w3))) as (-> & _ & ->).
    rewrite stepSettle_hs. destruct (stepDepress_hs (i_amb x) w3) as (-> & -> & _ & Hh).
    apply stepExtra_frame in HE. destruct HE as (-> & _ & E3).
    destruct (afterControl_hs w2) as (-> & _ & Hm).
    split.
    - f_equal. f_equal. rewrite E3.
      transitivity (w_minStep (afterControl w2)); [destruct (afterControl w2); reflexivity|]. rewrite Hm.
      pose proof (control_cframe fuel (i_dr x) a w1) as HF. rewrite HC in HF. destruct HF as (_ & _ & HF). cbn [snd] in HF.
      rewrite HF. transitivity (w_minStep w1); [reflexivity|].
      destruct HP as (l & t & sc & -> & _). reflexivity.
    - transitivity (w_heating (stepDepress (i_amb x) w3)); [destruct (stepDepress (i_amb x) w3); reflexivity|].
      rewrite Hh, E3. destruct (afterControl w2); reflexivity.
  Qed.
End SimFrame.
