(** Proofs of the theorems stated in PropsRoundTrip.v: Properties of whole simulators written to the data model and read back *)

From Coq Require Import ZArith String List Bool Reals Lra Lia Floats Sorted.
From Verif Require Import Num FNum Base Units Utils Types TankM Logic HeatSrc Step Setters Perf DataModel Spec SpecDist.
From Verif Require Import RList FrameProofs SimFrame ControlProofs DistFacts PerfFacts StepEnergy SeqProofs DataModelFacts Example.
Import ListNotations.
Local Open Scope R_scope.
(** ** What is compared *)

(** a logic of charge is read back with its defaults, whatever was written (C67) *)
Definition sameLogic (l l' : logic R) : Prop :=
  match l with
  | TempLogic _ _ _ _ _ _ _ => sameDecisions l l'
  | SoCLogic _ _ _ _ _ _ _ _ => l_cmp l' = CLess /\ forall w, l_comparison w l' = - (5 / 100)
  end.
Definition sameLogicO (o o' : option (logic R)) : Prop :=
  match o, o' with Some l, Some l' => sameLogic l l' | None, None => True | _, _ => False end.

(** the members of a heat source that decide when it runs, what it is associated with and where its heat goes *)
Record sameSource (h h' : hsrc R) : Prop := {
  ss_type : h_type h' = h_type h;
  ss_vip : h_vip h' = h_vip h;
  ss_backup : h_backup h' = h_backup h;
  ss_followed : h_followed h' = h_followed h;
  ss_companion : h_companion h' = h_companion h;
  ss_shares : forall a b, wd_normalizedWeight (h_dist h') a b = wd_normalizedWeight (h_dist h) a b;
  ss_on : Forall2 sameLogic (h_turnOn h) (h_turnOn h');
  ss_off : Forall2 sameLogic (h_shutOff h) (h_shutOff h');
  ss_standby : sameLogicO (h_standby h) (h_standby h');
  ss_power : h_type h = TResistance -> h_power h' = h_power h;
  ss_cond : h_type h = TCompressor ->
    h_hyst h' = h_hyst h /\ h_maxSet h' = h_maxSet h /\ h_config h' = h_config h /\ h_stbyPwr h' = h_stbyPwr h /\
    h_minT h' = h_minT h /\ h_maxT h' = h_maxT h }.

(** an interpolator that returns the tabulated values at the points of a strictly increasing two-dimensional grid *)
Definition exact2 (itp : coil -> list (list R) -> list R -> list R -> R) : Prop :=
  forall cfg xs ys v i j, StronglySorted Rlt xs -> StronglySorted Rlt ys -> length v = (length xs * length ys)%nat ->
    (i < length xs)%nat -> (j < length ys)%nat ->
    itp cfg [xs; ys] v [nth i xs 0; nth j ys 0] = nth (i * length ys + j) v 0.

(** the compressor of an integrated unit, as [configure] and the presets leave it *)
Record integratedOK (h : hsrc R) (g : option (list (list R))) (cop : bool) : Prop := {
  io_coil : h_config h <> External;
  io_set : 0 < h_maxSet h;
  io_range : h_minT h <= h_maxT h;
  io_stby : 0 <= h_stbyPwr h;
  io_grid : match g with None => True | Some [a; b] => StronglySorted Rlt b | Some _ => False end;
  io_in : cop = true -> forall sp e s, p_in (h_eval h sp e s) <> 0 }.

(** an integrated unit whose heat sources have distinct names and at most one compressor and one VIP *)
Record integratedUnit (u : usim R) : Prop := {
  iu_names : length (u_names u) = length (w_hs (u_w u));
  iu_grids : length (u_rgi u) = length (w_hs (u_w u));
  iu_distinct : NoDup (u_names u);
  iu_nonempty : ~ In EmptyString (u_names u);
  iu_assoc : forall h j, In h (w_hs (u_w u)) -> h_backup h = Some j \/ h_followed h = Some j \/ h_companion h = Some j ->
     (j < length (w_hs (u_w u)))%nat;
  iu_vip : forall i j hi hj, nth_error (w_hs (u_w u)) i = Some hi -> nth_error (w_hs (u_w u)) j = Some hj ->
     h_vip hi = true -> h_vip hj = true -> i = j;
  iu_dist : forall h, In h (w_hs (u_w u)) -> wd_isValid (h_dist h) = true;
  iu_logics : forall h l, In h (w_hs (u_w u)) -> In l (h_turnOn h ++ h_shutOff h) \/ h_standby h = Some l -> l_isValid l = true;
  iu_comp : forall i h, nth_error (w_hs (u_w u)) i = Some h -> h_type h = TCompressor ->
     w_compIx (u_w u) = Z.of_nat i /\ forall g, nth_error (u_rgi u) i = Some g -> integratedOK h g (u_cop u);
  iu_index : (0 <= w_compIx (u_w u))%Z -> exists h, nth_error (w_hs (u_w u)) (Z.to_nat (w_compIx (u_w u))) = Some h /\ h_type h = TCompressor }.

(** ** Reading logics *)
Lemma sameLogic_rt l : l_isValid l = true -> exists l', logicMake (logicTo l) = Ok (Some l') /\ sameLogic l l'.
Proof.
  intros HV. destruct l as [desc d dp ia c hts st|desc dp hy tm cm mm c st].
  - destruct (C67_temperature_logic_fact desc d dp ia c hts st HV) as (lb & d' & E & S). eauto.
  - destruct (C67_charge_logic_fact desc dp hy tm cm mm c st) as (l' & E & S1 & S2 & _). exists l'. split; [exact E|]. now split.
Qed.
Lemma makeAll_rt ls : (forall l, In l ls -> l_isValid l = true) ->
  exists ls', makeAll (map logicTo ls) = Ok ls' /\ Forall2 sameLogic ls ls'.
Proof.
  induction ls as [|l ls IH]; intros HV; [exists []; split; [reflexivity|constructor]|].
  destruct (sameLogic_rt l) as (l' & E & S); [apply HV; now left|].
  destruct IH as (ls' & E' & S'); [intros; apply HV; now right|].
  exists (l' :: ls'). split; [|now constructor]. cbn [map makeAll]. rewrite E. cbn [obind]. rewrite E'. reflexivity.
Qed.
Lemma setLogics_rt ls : (forall l, In l ls -> l_isValid l = true) ->
  exists ls', makeAll (from (setLogics ls) []) = Ok ls' /\ Forall2 sameLogic ls ls'.
Proof. intros HV. destruct ls as [|l ls]; [exists []; split; [reflexivity|constructor]|]. exact (makeAll_rt (l :: ls) HV). Qed.

(** ** Reading the performance map *)
Lemma list_prod_len {A B} (a : list A) (b : list B) : length (list_prod a b) = (length a * length b)%nat.
Proof. apply prod_length. Qed.
Lemma list_prod_nth {A B} (a : list A) (b : list B) x y : forall i j, (i < length a)%nat -> (j < length b)%nat ->
  nth (i * length b + j) (list_prod a b) (x, y) = (nth i a x, nth j b y).
Proof.
  induction a as [|z a IH]; intros i j Hi Hj; [cbn in Hi; lia|]. cbn [list_prod]. destruct i as [|i].
  - rewrite app_nth1 by (rewrite map_length; lia). cbn [Nat.mul Nat.add nth].
    rewrite (nth_indep _ _ (z, y)) by (rewrite map_length; lia). apply (map_nth (fun q => (z, q))).
  - rewrite app_nth2 by (rewrite map_length; cbn; lia). rewrite map_length.
    replace (S i * length b + j - length b)%nat with (i * length b + j)%nat by (cbn; lia).
    cbn [nth]. apply IH; [cbn in Hi; lia|auto].
Qed.
Lemma caps_rt cop (ps : list (perf R)) : (cop = true -> forall p, In p ps -> p_in p <> 0) ->
  capsOrCops cop (map p_in ps) (map p_out ps) = Ok (map (fun p => if cop then p_out p / p_in p else p_out p) ps).
Proof.
  induction ps as [|p ps IH]; intros HN; [reflexivity|]. cbn [map capsOrCops].
  rewrite IH by (intros; apply HN; auto; now right). destruct cop; [|reflexivity].
  unfold div_chk, ndivok, RNum. destruct (Reqb' (p_in p) 0) eqn:E; [|reflexivity].
  apply Reqb'_true in E. destruct (HN eq_refl p); [now left|auto].
Qed.
Lemma map_KC (l : list R) : map K_TO_C (map C_TO_K l) = l.
Proof. rewrite map_map. rewrite <- (map_id l) at 2. apply map_ext. exact KC. Qed.
Lemma evals_K (h : hsrc R) sp env src :
  map (fun '(e, s) => h_eval h sp (K_TO_C (C_TO_K e)) (K_TO_C (C_TO_K s))) (list_prod env src) = evals2 h sp env src.
Proof. apply map_ext. intros [e s]. now rewrite !KC. Qed.

Lemma Rtrunc_ge2 x : 2 <= x -> (2 <= Rtrunc x)%Z.
Proof.
  intros Hx. rewrite Rtrunc_nonneg by lra. destruct (Rfloor_spec x) as [A B].
  assert (IZR 1 < IZR (Rfloor x)) by lra. apply lt_IZR in H. lia.
Qed.
Lemma nabs_nonneg (x : R) : 0 <= nabs' x.
Proof. unfold nabs'. num_simpl. bcase; rcase; lra. Qed.
Lemma curv_nonneg (h : hsrc R) sp hsT d dF env : forall m, 0 <= fst (fst m) -> 0 <= snd (fst m) -> 0 <= snd m ->
  let m' := fold_left (curvRound h sp hsT d dF) env m in 0 <= fst (fst m') /\ 0 <= snd (fst m') /\ 0 <= snd m'.
Proof.
  induction env as [|e env IH]; intros [[a b] c] HA HB HC; [cbn in *; auto|]. cbn [fold_left]. cbn [fst snd] in *.
  assert (X : 0 <= fst (fst (curvRound h sp hsT d dF (a, b, c) e)) /\ 0 <= snd (fst (curvRound h sp hsT d dF (a, b, c) e)) /\
              0 <= snd (curvRound h sp hsT d dF (a, b, c) e)).
  { unfold curvRound. cbv zeta. cbn [fst snd]. splits; match goal with |- context[if ?q then _ else _] => destruct q end; auto using nabs_nonneg. }
  destruct X as (X1 & X2 & X3). now apply IH.
Qed.
Lemma srcCount_ge (h : hsrc R) sp cop : 0 <= h_maxSet h -> (2 <= srcCount h sp cop)%Z.
Proof.
  intros HM. unfold srcCount.
  match goal with |- context[fold_left (curvRound h sp ?a ?b ?c) ?e ?m] => pose proof (curv_nonneg h sp a b c e m) as X;
    destruct (fold_left (curvRound h sp a b c) e m) as [[mi mo] mc] end.
  cbn [fst snd] in X. num_simpl. destruct X as (X1 & X2 & X3); try lra.
  assert (Y : forall r, 0 <= r -> (2 <= Rtrunc ((h_maxSet h - 0) / dF_TO_dC (160 - 0)%R * r * (11 - 2) + 2))%Z).
  { intros r Hr. apply Rtrunc_ge2. assert (0 <= (h_maxSet h - 0) / dF_TO_dC (160 - 0)%R).
    { unfold dF_TO_dC, FperC, dec. num_simpl. apply Rmult_le_pos; [lra|]. left. apply Rinv_0_lt_compat. lra. }
    nra. }
  pose proof (Y mi X1). pose proof (Y mo X2). pose proof (Y mc X3). destruct cop; lia.
Qed.
Lemma ramp_sorted (d : R) : 0 < d -> forall n x, StronglySorted Rlt (ramp n x d) /\ (forall y, In y (ramp n x d) -> x <= y).
Proof.
  intros Hd. induction n as [|n IH]; intros x; cbn [ramp]; [split; [constructor|intros y []]|].
  num_simpl. destruct (IH (x + d)) as [A B]. split.
  - constructor; auto. apply Forall_forall. intros y Hy. specialize (B y Hy). lra.
  - intros y [<-|Hy]; [lra|]. specialize (B y Hy). lra.
Qed.
Lemma ramp_len {T} {N : Num T} (d : T) : forall n x, length (ramp n x d) = n.
Proof. induction n; intros; cbn; auto. Qed.

(** the axes of the map written for an integrated compressor *)
Definition envAxis (h : hsrc R) (g : option (list (list R))) : list R :=
  match g with Some (a0 :: _) => trimGridVector (a0 ++ [h_minT h; h_maxT h])%list (h_minT h) (h_maxT h) | _ => envAxisFn h end.

Lemma envAxis_ok h g : h_minT h <= h_maxT h -> StronglySorted Rlt (envAxis h g) /\ hd 0 (envAxis h g) = h_minT h /\ last (envAxis h g) 0 = h_maxT h /\
  envAxis h g <> [].
Proof.
  intros HR.
  assert (G : forall v, In (h_minT h) v -> In (h_maxT h) v -> StronglySorted Rlt (trimGridVector v (h_minT h) (h_maxT h)) /\
     hd 0 (trimGridVector v (h_minT h) (h_maxT h)) = h_minT h /\ last (trimGridVector v (h_minT h) (h_maxT h)) 0 = h_maxT h /\
     trimGridVector v (h_minT h) (h_maxT h) <> []).
  { intros v A B. destruct (C61_trim_fact v (h_minT h) (h_maxT h)) as (S & I & E). destruct (E HR A B) as (E1 & E2). splits; auto.
    intros X. specialize (I (h_minT h)). rewrite X in I. apply I. split; [auto|lra]. }
  unfold envAxis, envAxisFn. destruct g as [[|a0 r]|]; apply G; try (apply in_or_app; right); cbn; auto 10.
Qed.

(** what writing an integrated compressor gives *)
Lemma condTo_ok (h : hsrc R) g cop sp : integratedOK h g cop -> exists src,
  condTo h g cop sp = Ok (mkdcond (Some (h_config h)) (toIf (Rltb 0 (h_stbyPwr h)) (1000 * h_stbyPwr h)) (Some (h_hyst h)) (Some (C_TO_K (h_maxSet h)))
     None (Some (mkdmap (Some (map C_TO_K (envAxis h g))) (Some (map C_TO_K src)) None
        (map p_in (evals2 h sp (envAxis h g) src)) (map p_out (evals2 h sp (envAxis h g) src)))) None None) /\
  StronglySorted Rlt src /\ match g with Some [a0; a1] => src = a1 | _ => True end.
Proof.
  intros [HC HS HR HB HG HI]. unfold condTo. destruct g as [[|a0 [|a1 [|a2 r]]]|]; try (now destruct HG).
  - exists a1. splits; auto. cbn [envAxis]. num_simpl. destruct (h_config h); try congruence; reflexivity.
  - unfold srcAxisFn. pose proof (srcCount_ge h sp cop ltac:(lra)) as X.
    destruct (Z.ltb_spec (srcCount h sp cop) 0) as [Y|Y]; [lia|]. cbn [obind].
    set (n := srcCount h sp cop) in *. clearbody n.
    exists (ramp (Z.to_nat n) 0 (h_maxSet h / IZR (n - 1))). splits; auto.
    + cbn [envAxis]. num_simpl. rewrite evals_K. destruct (h_config h); try congruence; reflexivity.
    + apply ramp_sorted. apply Rdiv_lt_0_compat; auto. apply (IZR_lt 0). lia.
Qed.

(** what the constructors leave *)
Record fresh (h : hsrc R) : Prop := {
  fr_on : h_turnOn h = []; fr_off : h_shutOff h = []; fr_standby : h_standby h = None; fr_backup : h_backup h = None;
  fr_followed : h_followed h = None; fr_companion : h_companion h = None }.
Lemma freshRes_fresh junk : fresh (freshRes junk).
Proof. constructor; reflexivity. Qed.
Lemma freshCond_fresh junk : fresh (freshCond junk).
Proof. constructor; reflexivity. Qed.
Lemma freshCond_more (junk : hsrc R) : h_type (freshCond junk) = TCompressor /\ h_config (freshCond junk) = Wrapped /\ h_shxHot (freshCond junk) = 0 /\ h_doDefrost (freshCond junk) = false /\
  h_stbyPwr (freshCond junk) = 0.
Proof. splits; reflexivity. Qed.

Record readCond itp cop (h : hsrc R) (sp : R) (env src : list R) (h' : hsrc R) : Prop := {
  rc_fresh : fresh h'; rc_type : h_type h' = TCompressor; rc_hyst : h_hyst h' = h_hyst h; rc_maxSet : h_maxSet h' = h_maxSet h;
  rc_config : h_config h' = h_config h; rc_stby : h_stbyPwr h' = h_stbyPwr h; rc_defrost : h_doDefrost h' = false; rc_minT : h_minT h' = h_minT h; rc_maxT : h_maxT h' = h_maxT h;
  rc_eval : h_eval h' = interpolated itp (h_config h) 0 cop [env; src] (map p_in (evals2 h sp env src))
     (map (fun p => if cop then p_out p / p_in p else p_out p) (evals2 h sp env src)) }.
Lemma last_map_C env e : map K_TO_C (map C_TO_K env) = env -> forall r, env = e :: r -> K_TO_C (last (map C_TO_K r) (C_TO_K e)) = last env 0.
Proof.
  intros _ r ->. rewrite (last_map C_TO_K). rewrite KC. revert e. induction r as [|x r IH]; intros e; [reflexivity|].
  cbn [last]. destruct r; [reflexivity|]. apply (IH e).
Qed.
Lemma condFrom_ok itp cop (h : hsrc R) g sp src d junk : integratedOK h g cop ->
  d = mkdcond (Some (h_config h)) (toIf (Rltb 0 (h_stbyPwr h)) (1000 * h_stbyPwr h)) (Some (h_hyst h)) (Some (C_TO_K (h_maxSet h)))
     None (Some (mkdmap (Some (map C_TO_K (envAxis h g))) (Some (map C_TO_K src)) None
        (map p_in (evals2 h sp (envAxis h g) src)) (map p_out (evals2 h sp (envAxis h g) src)))) None None ->
  exists h', condFrom itp cop d (freshCond junk) = Ok (h', Some [envAxis h g; src]) /\ readCond itp cop h sp (envAxis h g) src h'.
Proof.
  intros [HC HS HR HB HG HI] ->. destruct (envAxis_ok h g HR) as (ES & E1 & E2 & E3). set (env := envAxis h g) in *. clearbody env.
  unfold condFrom. cbn [dc_coil].
  assert (X : exists f, f = match h_config h with Submerged => set_h_config Submerged (freshCond junk) | Wrapped => set_h_config Wrapped (freshCond junk) | External => freshCond junk end /\
     fresh f /\ h_type f = TCompressor /\ h_config f = h_config h /\ h_shxHot f = 0 /\ h_stbyPwr f = 0 /\ h_doDefrost f = false).
  { eexists; split; [reflexivity|]. destruct (h_config h); try congruence; splits; try reflexivity; constructor; reflexivity. }
  destruct X as (f & Ef & F1 & F2 & F3 & F4 & F5 & F6).
  match goal with |- context[condCommon _ _ _ _ ?q] => replace q with f by (rewrite Ef; destruct (h_config h); reflexivity) end.
  clear Ef. unfold condCommon. cbn [dc_hyst dc_maxRef dc_map dc_defrost dc_stby from option_map].
  unfold readMap. cbn [dm_env dm_src dm_lvg dm_in dm_cap axisC app]. rewrite !map_KC.
  destruct env as [|e r] eqn:Ee; [congruence|]. cbn [map obind].
  rewrite caps_rt.
  2:{ intros Hc p Hp. unfold evals2 in Hp. apply in_map_iff in Hp. destruct Hp as ([e' s'] & <- & _). now apply HI. }
  cbn [obind length Nat.ltb Nat.leb]. wsimpl.
  assert (L : K_TO_C (last (map C_TO_K r) (C_TO_K e)) = h_maxT h).
  { rewrite (last_map_C (e :: r) e); auto. apply map_KC. }
  eexists. split; [reflexivity|]. destruct F1 as [A1 A2 A3 A4 A5 A6].
  destruct (Rltb 0 (h_stbyPwr h)) eqn:EP; cbn [toIf]; [apply Rltb_true in EP|apply Rltb_false in EP];
  constructor; wsimpl; auto; try (constructor; wsimpl; auto; fail).
  - now rewrite KC.
  - unfold W_TO_KW. num_simpl. field.
  - rewrite KC. exact E1.
  - rewrite F3, F4. reflexivity.
  - now rewrite KC.
  - lra.
  - rewrite KC. exact E1.
  - rewrite F3, F4. reflexivity.
Qed.

(** ** One heat source *)
Definition nameAt (names : list string) (o : option nat) : option string :=
  match o with None => None | Some j => nth_error names j end.
Lemma nameOf_ok names o : (forall j, o = Some j -> (j < length names)%nat) -> nameOf names o = Ok (nameAt names o).
Proof.
  intros HJ. destruct o as [j|]; [|reflexivity]. cbn. specialize (HJ j eq_refl). apply nth_error_Some in HJ.
  destruct (nth_error names j); [reflexivity|congruence].
Qed.

Record sourceRead itp cop names (w : hpwh R) (i : nat) (h : hsrc R) (g : option (list (list R))) (d : dhsc R)
  (r : hsrc R * option (list (list R)) * string) : Prop := {
  sr_id : dh_id d = nth_error names i;
  sr_name : nth_error names i = Some (snd r);
  sr_backup : dh_backup d = nameAt names (h_backup h);
  sr_followed : dh_followed d = nameAt names (h_followed h);
  sr_companion : dh_companion d = nameAt names (h_companion h);
  sr_kind : dh_kind d = match h_type h with TResistance => K_resistance | TCompressor => K_condenser end;
  sr_type : h_type (fst (fst r)) = h_type h;
  sr_none : h_backup (fst (fst r)) = None /\ h_followed (fst (fst r)) = None /\ h_companion (fst (fst r)) = None;
  sr_dist : h_dist (fst (fst r)) = Rel (h_dist h);
  sr_on : Forall2 sameLogic (h_turnOn h) (h_turnOn (fst (fst r)));
  sr_off : Forall2 sameLogic (h_shutOff h) (h_shutOff (fst (fst r)));
  sr_standby : sameLogicO (h_standby h) (h_standby (fst (fst r)));
  sr_power : h_type h = TResistance -> h_power (fst (fst r)) = h_power h;
  sr_cond : h_type h = TCompressor -> exists src,
    h_hyst (fst (fst r)) = h_hyst h /\ h_maxSet (fst (fst r)) = h_maxSet h /\ h_config (fst (fst r)) = h_config h /\
    h_stbyPwr (fst (fst r)) = h_stbyPwr h /\ h_minT (fst (fst r)) = h_minT h /\ h_maxT (fst (fst r)) = h_maxT h /\
    h_eval (fst (fst r)) = interpolated itp (h_config h) 0 cop [envAxis h g; src] (map p_in (evals2 h (w_setpoint w) (envAxis h g) src))
      (map (fun p => if cop then p_out p / p_in p else p_out p) (evals2 h (w_setpoint w) (envAxis h g) src)) /\
    StronglySorted Rlt src /\ match g with Some [a0; a1] => src = a1 | _ => True end /\ h_doDefrost (fst (fst r)) = false }.

(** what is asked of one heat source of an integrated unit *)
Record sourceOK (names : list string) (w : hpwh R) cop (i : nat) (h : hsrc R) (g : option (list (list R))) : Prop := {
  so_name : (i < length names)%nat;
  so_assoc : forall j, h_backup h = Some j \/ h_followed h = Some j \/ h_companion h = Some j -> (j < length names)%nat;
  so_logics : forall l, In l (h_turnOn h ++ h_shutOff h) \/ h_standby h = Some l -> l_isValid l = true;
  so_comp : h_type h = TCompressor -> integratedOK h g cop /\ exists c, compCoil w = Ok c /\ c <> External }.

Lemma standby_rt (o : option (logic R)) : (forall l, o = Some l -> l_isValid l = true) ->
  exists o', (match option_map logicTo o with None => Ok None | Some l => logicMake l end) = Ok o' /\ sameLogicO o o'.
Proof.
  intros HV. destruct o as [l|]; [|exists None; split; [reflexivity|exact I]].
  destruct (sameLogic_rt l (HV l eq_refl)) as (l' & E & S). exists (Some l'). split; [exact E|exact S].
Qed.

(** the part of reading common to both kinds *)
Lemma hsFrom_ok (h : hsrc R) k s bk fb co (f : hsrc R) nm :
  (forall l, In l (h_turnOn h ++ h_shutOff h) \/ h_standby h = Some l -> l_isValid l = true) -> fresh f ->
  exists f', hsFrom (mkdhsc (Some nm) k s (Some (wdTo (h_dist h))) (setLogics (h_turnOn h)) (setLogics (h_shutOff h))
                (option_map logicTo (h_standby h)) bk fb co) f = Ok (f', nm) /\
    h_dist f' = Rel (h_dist h) /\ Forall2 sameLogic (h_turnOn h) (h_turnOn f') /\ Forall2 sameLogic (h_shutOff h) (h_shutOff f') /\
    sameLogicO (h_standby h) (h_standby f') /\ h_type f' = h_type f /\ h_backup f' = None /\ h_followed f' = None /\ h_companion f' = None /\
    h_power f' = h_power f /\ h_hyst f' = h_hyst f /\ h_maxSet f' = h_maxSet f /\ h_config f' = h_config f /\ h_stbyPwr f' = h_stbyPwr f /\
    h_minT f' = h_minT f /\ h_maxT f' = h_maxT f /\ h_eval f' = h_eval f /\ h_doDefrost f' = h_doDefrost f.
Proof.
  intros HL [A1 A2 A3 A4 A5 A6]. unfold hsFrom. cbn [dh_dist dh_on dh_off dh_stby dh_id].
  pose proof (wdTo_Rel (h_dist h)) as ED. destruct (wdTo (h_dist h)) as [hs ws]. cbn [fst snd] in ED. rewrite ED.
  destruct (setLogics_rt (h_turnOn h)) as (on & E1 & S1); [intros; apply HL; left; apply in_or_app; auto|].
  destruct (setLogics_rt (h_shutOff h)) as (off & E2 & S2); [intros; apply HL; left; apply in_or_app; auto|].
  destruct (standby_rt (h_standby h)) as (st & E3 & S3); [intros; apply HL; auto|].
  rewrite E1, E2. cbn [obind]. rewrite E3. cbn [obind from]. wsimpl. rewrite A1, A2. cbn [app].
  eexists. split; [reflexivity|]. destruct st; wsimpl; rewrite ?A3; splits; auto.
Qed.

Lemma hsTo_names names i (h : hsrc R) g cop (w w' : hpwh R) k s nm : nth_error names i = Some nm ->
  (forall j, h_backup h = Some j \/ h_followed h = Some j \/ h_companion h = Some j -> (j < length names)%nat) ->
  sourceTo h g cop w = (Ok (k, s), w') ->
  hsTo names i h g cop w = (Ok (mkdhsc (Some nm) k s (Some (wdTo (h_dist h))) (setLogics (h_turnOn h)) (setLogics (h_shutOff h))
                (option_map logicTo (h_standby h)) (nameAt names (h_backup h)) (nameAt names (h_followed h)) (nameAt names (h_companion h))), w').
Proof.
  intros EN HA HS. unfold hsTo.
  rewrite (nameOf_ok names (Some i)) by (intros j [= <-]; apply nth_error_Some; congruence).
  rewrite (nameOf_ok names (h_backup h)) by (intros; apply HA; auto).
  rewrite (nameOf_ok names (h_followed h)) by (intros; apply HA; auto).
  rewrite (nameOf_ok names (h_companion h)) by (intros; apply HA; auto).
  cbn [nameAt]. rewrite EN. unfold bind, lift. rewrite HS. reflexivity.
Qed.
Lemma sourceTo_cond (h : hsrc R) g cop w c cc : h_type h = TCompressor -> compCoil w = Ok cc -> cc <> External -> h_config h <> External ->
  condTo h g cop (w_setpoint w) = Ok c -> sourceTo h g cop w = (Ok (K_condenser, SCond c), w).
Proof.
  intros ET Ecc Hcc Hn Ec. unfold sourceTo. rewrite ET. unfold bind at 1, get at 1. unfold bind at 1, lift at 1. rewrite Ecc.
  replace (isExt cc) with false by (destruct cc; auto; congruence). replace (isExt (h_config h)) with false by (destruct (h_config h); auto; congruence).
  unfold bind, lift. rewrite Ec. reflexivity.
Qed.
Lemma sourceTo_res (h : hsrc R) g cop w : h_type h = TResistance -> sourceTo h g cop w = (Ok (K_resistance, SRes (1000 * h_power h)), w).
Proof. intros ET. unfold sourceTo. rewrite ET. reflexivity. Qed.
Lemma intSource_cond itp junk cop id (c : dcond (T:=R)) di on off st bk fb co :
  intSource itp junk cop (mkdhsc id K_condenser (SCond c) di on off st bk fb co) = condFrom itp cop c (freshCond junk).
Proof. reflexivity. Qed.
Lemma intSource_res itp junk cop id (p : R) di on off st bk fb co :
  intSource itp junk cop (mkdhsc id K_resistance (SRes p) di on off st bk fb co) = Ok (set_h_power (p / 1000) (freshRes junk), None).
Proof. reflexivity. Qed.
Lemma resRead (junk : hsrc R) p : fresh (set_h_power p (freshRes junk)) /\ h_type (set_h_power p (freshRes junk)) = TResistance /\ h_power (set_h_power p (freshRes junk)) = p.
Proof. split; [|split; reflexivity]. constructor; reflexivity. Qed.

Lemma source_rt itp junk names (w : hpwh R) cop cop2 i (h : hsrc R) g : sourceOK names w cop i h g -> (h_type h = TCompressor -> cop2 = cop) ->
  exists d h1 g1 r, hsTo names i h g cop w = (Ok d, w) /\ intSource itp junk cop2 d = Ok (h1, g1) /\
    hsFrom d h1 = Ok (fst (fst r), snd r) /\ snd (fst r) = g1 /\ sourceRead itp cop names w i h g d r.
Proof.
  intros [HN HA HL HC] HQ. apply nth_error_Some in HN. destruct (nth_error names i) as [nm|] eqn:EN; [|congruence]. clear HN.
  destruct (h_type h) eqn:ET.
  - rewrite (HQ eq_refl). destruct (HC eq_refl) as (HI & cc & Ecc & Hcc). clear HC HQ.
    destruct (condTo_ok h g cop (w_setpoint w) HI) as (src & Esrc & Ss & Sg).
    match type of Esrc with _ = Ok ?q => remember q as dc eqn:Edc end.
    destruct (condFrom_ok itp cop h g (w_setpoint w) src dc junk HI Edc) as (h1 & Eh1 & Rh1). clear Edc.
    pose proof (hsTo_names names i h g cop w w _ _ nm EN HA (sourceTo_cond h g cop w dc cc ET Ecc Hcc (io_coil _ _ _ HI) Esrc)) as E0.
    destruct (hsFrom_ok h K_condenser (SCond dc) (nameAt names (h_backup h)) (nameAt names (h_followed h)) (nameAt names (h_companion h)) h1 nm HL (rc_fresh _ _ _ _ _ _ _ Rh1)) as (f' & E & F).
    eexists. exists h1, (Some [envAxis h g; src]), (f', Some [envAxis h g; src], nm). split; [exact E0|]. split; [rewrite intSource_cond; exact Eh1|]. split; [exact E|]. split; [reflexivity|].
    destruct F as (F1 & F2 & F3 & F4 & F5 & F6 & F7 & F8 & F9 & F10 & F11 & F12 & F13 & F14 & F15 & F16 & F17).
    destruct Rh1 as [R1 R2 R3 R4 R5 R6 R10 R7 R8 R9]. clear E0 E Eh1 Esrc.
    constructor; cbn [fst snd dh_id dh_backup dh_followed dh_companion dh_kind]; auto; try congruence.
    + now rewrite ET.
    + intros _. exists src. splits; auto; congruence.
  - pose proof (hsTo_names names i h g cop w w _ _ nm EN HA (sourceTo_res h g cop w ET)) as E0.
    destruct (resRead junk (1000 * h_power h / 1000)) as (Q1 & Q2 & Q3).
    destruct (hsFrom_ok h K_resistance (SRes (1000 * h_power h)) (nameAt names (h_backup h)) (nameAt names (h_followed h)) (nameAt names (h_companion h))
       (set_h_power (1000 * h_power h / 1000) (freshRes junk)) nm HL Q1) as (f' & E & F).
    eexists. exists (set_h_power (1000 * h_power h / 1000) (freshRes junk)), None, (f', None, nm).
    split; [exact E0|]. split; [apply intSource_res|]. split; [exact E|]. split; [reflexivity|].
    destruct F as (F1 & F2 & F3 & F4 & F5 & F6 & F7 & F8 & F9 & _). clear E0 E. rewrite Q2 in F5. rewrite Q3 in F9.
    constructor; cbn [fst snd dh_id dh_backup dh_followed dh_companion dh_kind]; auto; try congruence.
    + now rewrite ET.
    + intros _. rewrite F9. field.
Qed.

(** ** All heat sources *)
Lemma sources_rt itp junk names (w : hpwh R) cop cop2 : forall hs gs k, length gs = length hs ->
  (forall i h g, nth_error hs i = Some h -> nth_error gs i = Some g -> sourceOK names w cop (k + i) h g) ->
  (forall h, In h hs -> h_type h = TCompressor -> cop2 = cop) ->
  exists ds rs, mapM (fun '(i, (h, g)) => hsTo names i h g cop) (combine (seq k (length hs)) (combine hs gs)) w = (Ok ds, w) /\
    readSources (intSource itp junk cop2) ds = Ok rs /\ length ds = length hs /\ length rs = length hs /\
    forall i h g d r, nth_error hs i = Some h -> nth_error gs i = Some g -> nth_error ds i = Some d -> nth_error rs i = Some r ->
      sourceRead itp cop names w (k + i) h g d r.
Proof.
  induction hs as [|h hs IH]; intros gs k HL HO HQ.
  - exists [], []. splits; auto. intros i h g d r Hh. now rewrite nth_error_nil in Hh || destruct i.
  - destruct gs as [|g gs]; [discriminate|]. injection HL as HL.
    destruct (source_rt itp junk names w cop cop2 (k + 0) h g (HO 0%nat h g eq_refl eq_refl) (HQ h (or_introl eq_refl))) as (d & h1 & g1 & r & E1 & E2 & E3 & E4 & HS).
    destruct (IH gs (S k) HL) as (ds & rs & E5 & E6 & L1 & L2 & HR).
    { intros i h' g' A B. replace (S k + i)%nat with (k + S i)%nat by lia. now apply HO. }
    { intros; apply (HQ h0); auto. now right. }
    exists (d :: ds), (r :: rs). splits.
    + cbn [length seq combine mapM]. rewrite Nat.add_0_r in E1. unfold bind at 1. rewrite E1. unfold bind at 1. rewrite E5. reflexivity.
    + cbn [readSources]. rewrite E2. cbn [obind]. rewrite E3. cbn [obind]. rewrite E6. cbn [obind]. rewrite <- E4. destruct r as [[a b] c]. reflexivity.
    + cbn; auto.
    + cbn; auto.
    + intros [|i] h' g' d' r' A B C D; cbn in A, B, C, D.
      * injection A as <-; injection B as <-; injection C as <-; injection D as <-. exact HS.
      * replace (k + S i)%nat with (S k + i)%nat by lia. now apply (HR i).
Qed.

Lemma lookupFrom_miss s : forall ids k f, ~ In s ids -> lookupFrom k ids s f = f.
Proof.
  induction ids as [|x ids IH]; intros k f HN; [reflexivity|]. cbn. rewrite IH by (intros X; apply HN; now right).
  destruct (String.eqb_spec x s) as [->|]; [destruct HN; now left|reflexivity].
Qed.
Lemma lookupFrom_hit s : forall ids k f j, NoDup ids -> nth_error ids j = Some s -> lookupFrom k ids s f = (k + j)%nat.
Proof.
  induction ids as [|x ids IH]; intros k f j HD HJ; [destruct j; discriminate|]. inversion HD as [|? ? HX HD']; subst.
  destruct j as [|j]; cbn in *.
  - injection HJ as ->. rewrite String.eqb_refl. rewrite lookupFrom_miss by auto. lia.
  - rewrite (IH (S k) _ j HD' HJ). lia.
Qed.

(** the primary heat source *)
Lemma vip_fold : forall (hs : list (hsrc R)) (names : list string) acc, length names = length hs ->
  (forall h, In h hs -> h_vip h = false) -> fold_left (fun acc '(h, s) => if h_vip h then Some s else acc) (combine hs names) acc = acc.
Proof.
  induction hs as [|h hs IH]; intros [|s names] acc HL HV; try reflexivity. cbn [combine fold_left].
  rewrite (HV h) by now left. injection HL as HL. apply IH; auto. intros; apply HV; now right.
Qed.
Lemma vip_name : forall (hs : list (hsrc R)) (names : list string) acc i h s, length names = length hs ->
  (forall i j hi hj, nth_error hs i = Some hi -> nth_error hs j = Some hj -> h_vip hi = true -> h_vip hj = true -> i = j) ->
  nth_error hs i = Some h -> nth_error names i = Some s -> h_vip h = true ->
  fold_left (fun acc '(h, s) => if h_vip h then Some s else acc) (combine hs names) acc = Some s.
Proof.
  induction hs as [|x hs IH]; intros names acc i h s HL HU HI HN HV; [destruct i; discriminate|]. destruct names as [|t names]; [discriminate|].
  cbn [combine fold_left]. injection HL as HL. destruct i as [|i].
  - cbn in HI, HN. injection HI as ->. injection HN as ->. rewrite HV. apply vip_fold; auto.
    intros h' Hin. destruct (h_vip h') eqn:E; auto. apply In_nth_error in Hin. destruct Hin as (j & Hj).
    specialize (HU 0%nat (S j) h h' eq_refl Hj HV E). discriminate.
  - cbn in HI, HN. apply (IH names _ i h s); auto. intros a b ha hb A B C D. specialize (HU (S a) (S b) ha hb A B C D). congruence.
Qed.
Lemma vip_flag (hs : list (hsrc R)) names i h s : length names = length hs -> NoDup names -> ~ In EmptyString names ->
  (forall i j hi hj, nth_error hs i = Some hi -> nth_error hs j = Some hj -> h_vip hi = true -> h_vip hj = true -> i = j) ->
  nth_error hs i = Some h -> nth_error names i = Some s ->
  String.eqb s (from (fold_left (fun acc '(h, s) => if h_vip h then Some s else acc) (combine hs names) None) EmptyString) = h_vip h.
Proof.
  intros HL HD HE HU HI HN. destruct (h_vip h) eqn:EV.
  - rewrite (vip_name hs names None i h s) by auto. cbn [from]. apply String.eqb_refl.
  - destruct (existsb (@h_vip R) hs) eqn:EX.
    + apply existsb_exists in EX. destruct EX as (h2 & Hin & Hv). apply In_nth_error in Hin. destruct Hin as (j & Hj).
      assert (HJ : exists s2, nth_error names j = Some s2).
      { destruct (nth_error names j) eqn:E; eauto. apply nth_error_None in E. assert (j < length hs)%nat by (apply nth_error_Some; congruence). lia. }
      destruct HJ as (s2 & Hs2). rewrite (vip_name hs names None j h2 s2) by auto. cbn [from].
      apply String.eqb_neq. intros ->. assert (i = j).
      { apply (proj1 (NoDup_nth_error names) HD); [apply nth_error_Some|]; congruence. }
      subst j. congruence.
    + rewrite vip_fold; auto.
      * cbn [from]. apply String.eqb_neq. intros ->. apply HE. now apply nth_error_In in HN.
      * intros h' Hin. destruct (h_vip h') eqn:E; auto. assert (existsb (@h_vip R) hs = true) by (apply existsb_exists; eauto). congruence.
Qed.

Lemma nth_error_combine {A B} : forall (a : list A) (b : list B) i x y, nth_error a i = Some x -> nth_error b i = Some y -> nth_error (combine a b) i = Some (x, y).
Proof. induction a as [|z a IH]; intros [|t b] [|i] x y HA HB; cbn in *; try discriminate; [congruence|auto]. Qed.
Lemma nth_error_some {A} (l : list A) i : (i < length l)%nat -> exists x, nth_error l i = Some x.
Proof. intros Hi. apply nth_error_Some in Hi. destruct (nth_error l i); [eauto|congruence]. Qed.
Lemma Forall2_nth {A B} (P : A -> B -> Prop) : forall a b, length a = length b ->
  (forall i x y, nth_error a i = Some x -> nth_error b i = Some y -> P x y) -> Forall2 P a b.
Proof.
  induction a as [|x a IH]; intros [|y b] HL HP; try discriminate; constructor.
  - exact (HP 0%nat x y eq_refl eq_refl).
  - apply IH; [now injection HL|]. intros i; exact (HP (S i)).
Qed.
Lemma lastComp_ok : forall (ds : list (dhsc R)) k start,
  (forall i d, nth_error ds i = Some d -> dh_kind d <> K_resistance -> False) -> lastComp k ds start = start.
Proof.
  induction ds as [|d ds IH]; intros k start HN; [reflexivity|]. cbn.
  assert (dh_kind d = K_resistance) by (destruct (dh_kind d) eqn:E; auto; exfalso; apply (HN 0%nat d eq_refl); congruence).
  rewrite H. apply IH. intros i d' A. exact (HN (S i) d' A).
Qed.
Lemma lastComp_at : forall (ds : list (dhsc R)) k start i d, nth_error ds i = Some d -> dh_kind d <> K_resistance ->
  (forall j d', nth_error ds j = Some d' -> dh_kind d' <> K_resistance -> j = i) -> lastComp k ds start = Z.of_nat (k + i).
Proof.
  induction ds as [|x ds IH]; intros k start i d HI HK HU; [destruct i; discriminate|]. cbn. destruct i as [|i].
  - cbn in HI. injection HI as ->. rewrite lastComp_ok.
    + destruct (dh_kind d); try congruence; f_equal; lia.
    + intros j d' A B. specialize (HU (S j) d' A B). discriminate.
  - rewrite (IH (S k) _ i d HI HK); [f_equal; lia|]. intros j d' A B. specialize (HU (S j) d' A B). congruence.
Qed.

(** ** Whole integrated units *)
Lemma unit_sourceOK u : integratedUnit u -> forall i h g, nth_error (w_hs (u_w u)) i = Some h -> nth_error (u_rgi u) i = Some g ->
  sourceOK (u_names u) (u_w u) (u_cop u) (0 + i) h g.
Proof.
  intros [] i h g Hh Hg. pose proof (nth_error_In _ _ Hh) as Hin. constructor.
  - rewrite iu_names0. apply nth_error_Some. cbn. congruence.
  - intros j Hj. rewrite iu_names0. eauto.
  - eauto.
  - intros HT. destruct (iu_comp0 i h Hh HT) as (E & Q). split; [auto|]. exists (h_config h). split.
    + unfold compCoil. rewrite E. destruct (Z.ltb_spec (Z.of_nat i) 0); [lia|]. rewrite Nat2Z.id, Hh. reflexivity.
    + destruct (Q g Hg). auto.
Qed.

Definition readCop (u : usim R) : bool := from (toIf (Z.leb 0 (w_compIx (u_w u))) (u_cop u)) false.
Lemma unit_readCop u : integratedUnit u -> forall h, In h (w_hs (u_w u)) -> h_type h = TCompressor -> readCop u = u_cop u.
Proof.
  intros HU h Hin HT. apply In_nth_error in Hin. destruct Hin as (i & Hi). destruct (iu_comp u HU i h Hi HT) as (E & _).
  unfold readCop. rewrite E. destruct (Z.leb_spec 0 (Z.of_nat i)); [reflexivity|lia].
Qed.

Definition unitPrimary (u : usim R) : option string :=
  fold_left (fun acc '(h, s) => if h_vip h then Some s else acc) (combine (w_hs (u_w u)) (u_names u)) None.
Lemma perfTo_eq (u : usim R) ds : mapM (fun '(i, (h, g)) => hsTo (u_names u) i h g (u_cop u))
    (combine (seq 0 (length (w_hs (u_w u)))) (combine (w_hs (u_w u)) (u_rgi u))) (u_w u) = (Ok ds, u_w u) ->
  perfTo u (u_w u) = (Ok (mkdperf (tankTo (w_tank (u_w u))) ds (unitPrimary u)), u_w u).
Proof. intros E. unfold perfTo. unfold bind at 1. rewrite E. reflexivity. Qed.
Definition unitHead (u : usim R) : option dsys -> option (dperf (T:=R)) -> option (dcentral (T:=R)) -> dsim R :=
  mkdsim (Some (w_doDepress (u_w u))) (Some (Z.of_nat (numNodes (w_tank (u_w u))))) (Some (t_fixed (w_tank (u_w u))))
    (Some (C_TO_K (w_setpoint (u_w u)))) (toIf (Z.leb 0 (w_compIx (u_w u))) (u_cop u)).
Lemma simTo_int (u : usim R) p : integratedUnit u -> perfTo u (u_w u) = (Ok p, u_w u) ->
  simTo u (u_w u) = (Ok (unitHead u (Some Sys_integrated) (Some p) None), u_w u).
Proof.
  intros HU E. unfold simTo. unfold bind at 1, get at 1. cbv beta zeta.
  destruct (Z.leb 0 (w_compIx (u_w u))) eqn:EC.
  - apply Z.leb_le in EC. destruct (iu_index u HU EC) as (h & Hh & HT). destruct (iu_comp u HU _ h Hh HT) as (Ei & Q).
    assert (Hg : exists g, nth_error (u_rgi u) (Z.to_nat (w_compIx (u_w u))) = Some g).
    { apply nth_error_some. rewrite (iu_grids u HU). apply nth_error_Some. congruence. }
    destruct Hg as (g & Hg). specialize (Q g Hg).
    unfold bind at 1. unfold bind at 1, lift at 1. unfold compCoil. destruct (Z.ltb_spec (w_compIx (u_w u)) 0); [lia|]. rewrite Hh. unfold ret at 1.
    replace (isExt (h_config h)) with false by (destruct Q as [Q _ _ _ _ _]; destruct (h_config h); auto; congruence).
    unfold bind at 1. rewrite E. unfold ret, unitHead. replace (Z.leb 0 (w_compIx (u_w u))) with true by (symmetry; apply Z.leb_le; lia). reflexivity.
  - unfold bind at 1, ret at 1. unfold bind at 1. rewrite E. unfold ret, unitHead. rewrite EC. reflexivity.
Qed.

Definition startTank (d : dsim R) (t : tank R) : tank R :=
  set_t_fixed (from (du_fixed d) true) (set_t_Ts (resize (Z.to_nat (from (du_nodes d) 12%Z)) (t_Ts t)) t).
Definition linkAll (p : dperf (T:=R)) (rs : list (hsrc R * option (list (list R)) * string)) : list (hsrc R) :=
  map (fun '(d, (h, _, name)) => link (map (fun d => from (dh_id d) EmptyString) (dp_hs p)) (dp_primary p) d h name) (combine (dp_hs p) rs).
Lemma perfFrom_eq rd (p : dperf (T:=R)) rs (u1 : usim R) : readSources rd (dp_hs p) = Ok rs ->
  exists v, perfFrom rd p u1 = Ok v /\ w_hs (u_w v) = linkAll p rs /\ w_tank (u_w v) = tankFrom (dp_tank p) (w_tank (u_w u1)) /\
    w_compIx (u_w v) = lastComp 0 (dp_hs p) (w_compIx (u_w u1)) /\ u_names v = map snd rs /\ u_rgi v = map (fun r => snd (fst r)) rs /\ u_cop v = u_cop u1 /\
    w_setpoint (u_w v) = w_setpoint (u_w u1) /\ w_doDepress (u_w v) = w_doDepress (u_w u1).
Proof.
  intros E. unfold perfFrom. rewrite E. cbn [obind]. eexists. split; [reflexivity|]. cbn [u_w u_names u_rgi u_cop]. wsimpl. splits; reflexivity.
Qed.
Lemma simFrom_int itp junk (u : usim R) p rs (u0 : usim R) : readSources (intSource itp junk (readCop u)) (dp_hs p) = Ok rs ->
  exists v, simFrom itp junk (unitHead u (Some Sys_integrated) (Some p) None) u0 = Ok v /\ w_hs (u_w v) = linkAll p rs /\
    w_tank (u_w v) = set_t_fixed (t_fixed (w_tank (u_w u))) (tankFrom (dp_tank p) (startTank (unitHead u (Some Sys_integrated) (Some p) None) (w_tank (u_w u0)))) /\
    w_compIx (u_w v) = lastComp 0 (dp_hs p) (w_compIx (u_w u0)) /\ u_names v = map snd rs /\ u_rgi v = map (fun r => snd (fst r)) rs /\ u_cop v = readCop u /\
    w_setpoint (u_w v) = w_setpoint (u_w u) /\ w_doDepress (u_w v) = w_doDepress (u_w u).
Proof.
  intros E. unfold simFrom. cbn [unitHead du_nodes du_fixed du_setpoint du_depress du_cop du_sys du_int from option_map].
  destruct (Z.ltb_spec (Z.of_nat (numNodes (w_tank (u_w u)))) 0); [lia|]. fold (readCop u).
  match goal with |- context[perfFrom _ p ?q] => destruct (perfFrom_eq (intSource itp junk (readCop u)) p rs q E) as (v & Ev & A1 & A2 & A3 & A4 & A5 & A6 & A7 & A8) end.
  rewrite Ev. cbn [obind]. eexists. split; [reflexivity|]. cbn [u_w u_names u_rgi u_cop] in *. wsimpl.
  rewrite A1, A2, A3, A4, A5, A6, A7, A8. wsimpl. splits; auto. apply KC.
Qed.
Lemma link_facts ids pr (d : dhsc R) (h : hsrc R) nm : let h' := link ids pr d h nm in
  h_vip h' = String.eqb nm (from pr EmptyString) /\
  h_backup h' = match dh_backup d with Some s => Some (lookup ids s) | None => h_backup h end /\
  h_followed h' = match dh_followed d with Some s => Some (lookup ids s) | None => h_followed h end /\
  h_companion h' = match dh_companion d with Some s => Some (lookup ids s) | None => h_companion h end /\
  h_type h' = h_type h /\ h_dist h' = h_dist h /\ h_turnOn h' = h_turnOn h /\ h_shutOff h' = h_shutOff h /\ h_standby h' = h_standby h /\
  h_power h' = h_power h /\ h_hyst h' = h_hyst h /\ h_maxSet h' = h_maxSet h /\ h_config h' = h_config h /\ h_stbyPwr h' = h_stbyPwr h /\
  h_minT h' = h_minT h /\ h_maxT h' = h_maxT h /\ h_eval h' = h_eval h /\ h_doDefrost h' = h_doDefrost h.
Proof.
  unfold link. destruct (dh_backup d), (dh_followed d), (dh_companion d); wsimpl; splits; reflexivity.
Qed.
Lemma lookup_nameAt names o : NoDup names -> (forall j, o = Some j -> (j < length names)%nat) ->
  match nameAt names o with Some s => Some (lookup names s) | None => None end = o.
Proof.
  intros HD HJ. destruct o as [j|]; [|reflexivity]. cbn. destruct (nth_error_some names j (HJ j eq_refl)) as (s & E). rewrite E.
  unfold lookup. rewrite (lookupFrom_hit s names 0 0 j HD E). reflexivity.
Qed.

(** everything known about an integrated unit read back *)
Lemma integrated_rt itp junk u u0 : integratedUnit u -> exists d v ds rs,
  simTo u (u_w u) = (Ok d, u_w u) /\ simFrom itp junk d u0 = Ok v /\
  length ds = length (w_hs (u_w u)) /\ length rs = length (w_hs (u_w u)) /\
  (forall i h g d r, nth_error (w_hs (u_w u)) i = Some h -> nth_error (u_rgi u) i = Some g -> nth_error ds i = Some d -> nth_error rs i = Some r ->
     sourceRead itp (u_cop u) (u_names u) (u_w u) i h g d r) /\
  w_hs (u_w v) = linkAll (mkdperf (tankTo (w_tank (u_w u))) ds (unitPrimary u)) rs /\
  map (fun d => from (dh_id d) EmptyString) ds = u_names u /\ map snd rs = u_names u /\ u_names v = u_names u /\
  w_tank (u_w v) = set_t_fixed (t_fixed (w_tank (u_w u))) (tankFrom (tankTo (w_tank (u_w u))) (startTank d (w_tank (u_w u0)))) /\
  du_nodes d = Some (Z.of_nat (numNodes (w_tank (u_w u)))) /\
  w_setpoint (u_w v) = w_setpoint (u_w u) /\ w_doDepress (u_w v) = w_doDepress (u_w u) /\
  w_compIx (u_w v) = lastComp 0 ds (w_compIx (u_w u0)) /\ u_cop v = readCop u.
Proof.
  intros HU.
  destruct (sources_rt itp junk (u_names u) (u_w u) (u_cop u) (readCop u) (w_hs (u_w u)) (u_rgi u) 0 (iu_grids u HU) (unit_sourceOK u HU) (unit_readCop u HU))
    as (ds & rs & E1 & E2 & L1 & L2 & HR).
  pose proof (perfTo_eq u ds E1) as E3. set (p := mkdperf (tankTo (w_tank (u_w u))) ds (unitPrimary u)) in *.
  destruct (simFrom_int itp junk u p rs u0 E2) as (v & E4 & A1 & A2 & A3 & A4 & A5 & A6 & A7 & A8).
  assert (N1 : map (fun d => from (dh_id d) EmptyString) ds = u_names u /\ map snd rs = u_names u).
  { assert (LL : length (u_names u) = length (w_hs (u_w u))) by apply (iu_names u HU).
    assert (LG : length (u_rgi u) = length (w_hs (u_w u))) by apply (iu_grids u HU).
    assert (GX : forall i, (i < length (w_hs (u_w u)))%nat -> exists d r s, nth_error ds i = Some d /\ nth_error rs i = Some r /\ nth_error (u_names u) i = Some s /\
       dh_id d = Some s /\ snd r = s).
    { intros i Hi. destruct (nth_error_some (w_hs (u_w u)) i Hi) as (h & Hh). destruct (nth_error_some (u_rgi u) i ltac:(lia)) as (g & Hg).
      destruct (nth_error_some ds i ltac:(lia)) as (d & Hd). destruct (nth_error_some rs i ltac:(lia)) as (r & Hr).
      destruct (nth_error_some (u_names u) i ltac:(lia)) as (s & Hs). exists d, r, s. destruct (HR i h g d r Hh Hg Hd Hr). cbn [Nat.add] in *.
      splits; auto; congruence. }
    split; apply nth_error_ext || (apply nth_ext with (d := EmptyString) (d' := EmptyString); [rewrite map_length; lia|]).
    - intros i Hi. rewrite map_length, L1 in Hi. destruct (GX i Hi) as (d & r & s & B1 & B2 & B3 & B4 & B5).
      apply nth_error_nth with (d := EmptyString) in B3. rewrite B3. apply nth_error_nth.
      rewrite nth_error_map, B1. cbn. rewrite B4. reflexivity.
    - intros i Hi. rewrite map_length, L2 in Hi. destruct (GX i Hi) as (d & r & s & B1 & B2 & B3 & B4 & B5).
      apply nth_error_nth with (d := EmptyString) in B3. rewrite B3. apply nth_error_nth.
      rewrite nth_error_map, B2. cbn. rewrite B5. reflexivity. }
  destruct N1 as [N1 N2].
  exists (unitHead u (Some Sys_integrated) (Some p) None), v, ds, rs. splits; auto.
  - now apply simTo_int.
  - congruence.
Qed.
Lemma resize_len {T} {N : Num T} n (l : list T) : length (resize n l) = n.
Proof. unfold resize. rewrite app_length, firstn_length, repeat_length. lia. Qed.

(** ** C84: a whole integrated unit *)

Lemma C84_integrated_fact : forall itp junk (u u0 : usim R), integratedUnit u -> exists d v,
  simTo u (u_w u) = (Ok d, u_w u) /\ simFrom itp junk d u0 = Ok v /\
  Forall2 sameSource (w_hs (u_w u)) (w_hs (u_w v)) /\ u_names v = u_names u /\
  w_setpoint (u_w v) = w_setpoint (u_w u) /\ w_doDepress (u_w v) = w_doDepress (u_w u) /\
  numNodes (w_tank (u_w v)) = numNodes (w_tank (u_w u)) /\ t_volume (w_tank (u_w v)) = t_volume (w_tank (u_w u)) /\
  t_UA (w_tank (u_w v)) = t_UA (w_tank (u_w u)) /\ t_fixed (w_tank (u_w v)) = t_fixed (w_tank (u_w u)) /\
  ((0 <= w_compIx (u_w u))%Z -> w_compIx (u_w v) = w_compIx (u_w u) /\ u_cop v = u_cop u).
Proof.
  intros itp junk u u0 HU.
  destruct (integrated_rt itp junk u u0 HU) as (d & v & ds & rs & E1 & E2 & L1 & L2 & HR & A1 & N1 & N2 & N3 & A2 & A3 & A4 & A5 & A6 & A7).
  pose proof (iu_names u HU) as LN. pose proof (iu_grids u HU) as LG.
  exists d, v. split; [exact E1|]. split; [exact E2|]. split; [|split; [exact N3|split; [exact A4|split; [exact A5|]]]].
  - rewrite A1. unfold linkAll. cbn [dp_hs dp_primary]. rewrite N1. apply Forall2_nth.
    + rewrite map_length, combine_length. lia.
    + intros i h h' Hh Hh'.
      assert (Hi : (i < length (w_hs (u_w u)))%nat) by (apply nth_error_Some; congruence).
      destruct (nth_error_some (u_rgi u) i ltac:(lia)) as (g & Hg).
      destruct (nth_error_some ds i ltac:(lia)) as (di & Hd). destruct (nth_error_some rs i ltac:(lia)) as (r & Hr).
      rewrite nth_error_map, (nth_error_combine _ _ _ _ _ Hd Hr) in Hh'. cbn [option_map] in Hh'. destruct r as [[h2 g2] nm]. injection Hh' as <-.
      destruct (HR i h g di _ Hh Hg Hd Hr) as [S1 S2 S3 S4 S5 S6 S7 S8 S9 S10 S11 S12 S13 S14]. cbn [fst snd] in *.
      destruct (link_facts (u_names u) (unitPrimary u) di h2 nm) as (B1 & B2 & B3 & B4 & B5 & B6 & B7 & B8 & B9 & B10 & B11 & B12 & B13 & B14 & B15 & B16 & B17 & B18).
      set (h' := link (u_names u) (unitPrimary u) di h2 nm) in *. clearbody h'. destruct S8 as (S81 & S82 & S83).
      pose proof (nth_error_In _ _ Hh) as Hin. pose proof (iu_distinct u HU) as HD.
      assert (HJ : forall j, h_backup h = Some j \/ h_followed h = Some j \/ h_companion h = Some j -> (j < length (u_names u))%nat)
        by (intros j Hj; rewrite LN; exact (iu_assoc u HU h j Hin Hj)).
      constructor; try congruence.
      * rewrite B1. apply (vip_flag _ _ i); auto; [apply (iu_nonempty u HU)|apply (iu_vip u HU)].
      * rewrite B2, S3, S81. apply lookup_nameAt; auto.
      * rewrite B3, S4, S82. apply lookup_nameAt; auto.
      * rewrite B4, S5, S83. apply lookup_nameAt; auto.
      * intros a b. rewrite B6, S9. destruct (valid_pos (h_dist h) (iu_dist u HU h Hin)) as (V1 & V2 & V3). apply normalized_rel; auto; lra.
      * intros HT. rewrite B10. auto.
      * intros HT. destruct (S14 HT) as (src & C1 & C2 & C3 & C4 & C5 & C6 & _). splits; congruence.
  - assert (NN : numNodes (w_tank (u_w v)) = numNodes (w_tank (u_w u))).
    { rewrite A2. unfold numNodes. wsimpl. destruct (C68_tank_fact (w_tank (u_w u)) (startTank d (w_tank (u_w u0)))) as (_ & _ & _ & _ & _ & _ & _ & X & _).
      rewrite X. unfold startTank. wsimpl. rewrite resize_len, A3. cbn [from]. unfold numNodes. lia. }
    split; [exact NN|]. rewrite A2. wsimpl.
    destruct (C68_tank_fact (w_tank (u_w u)) (startTank d (w_tank (u_w u0)))) as (X1 & X2 & _).
    split; [exact X1|]. split; [exact X2|]. split; [reflexivity|].
    intros HC. rewrite A6, A7. unfold readCop. replace (Z.leb 0 (w_compIx (u_w u))) with true by (symmetry; apply Z.leb_le; lia). split; [|reflexivity].
    destruct (iu_index u HU HC) as (h & Hh & HT).
    assert (K : forall i h d', nth_error (w_hs (u_w u)) i = Some h -> nth_error ds i = Some d' -> dh_kind d' = match h_type h with TResistance => K_resistance | TCompressor => K_condenser end).
    { intros i h' d' Hh' Hd'. assert (Hi : (i < length (w_hs (u_w u)))%nat) by (apply nth_error_Some; congruence).
      destruct (nth_error_some (u_rgi u) i ltac:(lia)) as (g & Hg). destruct (nth_error_some rs i ltac:(lia)) as (r & Hr).
      destruct (HR i h' g d' r Hh' Hg Hd' Hr); auto. }
    assert (Hi : (Z.to_nat (w_compIx (u_w u)) < length (w_hs (u_w u)))%nat) by (apply nth_error_Some; congruence).
    destruct (nth_error_some ds (Z.to_nat (w_compIx (u_w u))) ltac:(lia)) as (di & Hd).
    rewrite (lastComp_at ds 0 _ (Z.to_nat (w_compIx (u_w u))) di Hd).
    + cbn [Nat.add]. lia.
    + rewrite (K _ _ _ Hh Hd), HT. congruence.
    + intros j d' Hj HK. assert (Hj' : (j < length (w_hs (u_w u)))%nat) by (rewrite <- L1; apply nth_error_Some; congruence).
      destruct (nth_error_some _ j Hj') as (h' & Hh'). rewrite (K _ _ _ Hh' Hj) in HK. destruct (h_type h') eqn:ET; [|congruence].
      destruct (iu_comp u HU j h' Hh' ET) as (Q & _). lia.
Qed.
Definition exSim (Ts : list R) : usim R := mkusim (exUnit Ts) ["upper"; "lower"; "compressor"]%string [None; None; None] true.
Lemma exSim_ok Ts : integratedUnit (exSim Ts).
Proof.
  assert (VU : wd_isValid (exUpper (T:=R)) = true).
  { apply C45_validity_fact. unfold exUpper, dec. num_simpl. splits; [congruence|cbn; splits; lra|right; left; cbn; lra]. }
  assert (VL : wd_isValid (exLower (T:=R)) = true).
  { apply C45_validity_fact. unfold exLower, dec. num_simpl. splits; [congruence|cbn; splits; lra|left; cbn; lra]. }
  constructor.
  - reflexivity.
  - reflexivity.
  - repeat constructor; cbn; intuition discriminate.
  - cbn; intuition discriminate.
  - intros h j [<-|[<-|[<-|[]]]] Hj; cbn in Hj; cbn; intuition (try discriminate). injection H as <-. lia.
  - intros [|[|[|i]]] [|[|[|j]]] hi hj A B C D; cbn in A, B; try discriminate; try (destruct i; discriminate); try (destruct j; discriminate);
      injection A as <-; injection B as <-; cbn in C, D; try discriminate; auto.
  - intros h [<-|[<-|[<-|[]]]]; cbn [exHS h_dist]; assumption.
  - intros h l [<-|[<-|[<-|[]]]]; cbn [exHS h_turnOn h_shutOff h_standby app In]; intuition (try discriminate); subst; cbn [exOn exOff l_isValid]; assumption || reflexivity.
  - intros [|[|[|i]]] h A B; cbn in A; try discriminate; try (destruct i; discriminate); injection A as <-; try discriminate.
    split; [reflexivity|]. intros g [= <-]. constructor; unfold exHS; cbn [h_config h_maxSet h_minT h_maxT h_stbyPwr h_eval p_in]; unfold dec; num_simpl; try lra; try exact I; [congruence|].
    intros _ sp e s. lra.
  - intros _. eexists. split; reflexivity.
Qed.
Lemma C84_example_fact : forall itp junk u0, integratedUnit (exSim [20; 30; 40]) /\ exists d v, simTo (exSim [20; 30; 40]) (exUnit [20; 30; 40]) = (Ok d, exUnit [20; 30; 40]) /\
  simFrom itp junk d u0 = Ok v /\ map (@h_vip R) (w_hs (u_w v)) = [true; false; false] /\ map (@h_backup R) (w_hs (u_w v)) = [None; None; Some 1%nat].
Proof.
  intros itp junk u0. split; [apply exSim_ok|].
  destruct (C84_integrated_fact itp junk (exSim [20; 30; 40]) u0 (exSim_ok _)) as (d & v & E1 & E2 & F & _).
  exists d, v. split; [exact E1|]. split; [exact E2|].
  inversion F as [|x x' l l' S1 F1 X1 X1']; subst. inversion F1 as [|y y' m m' S2 F2 X2 X2']; subst. inversion F2 as [|z z' k k' S3 F3 X3 X3']; subst. inversion F3; subst.
  destruct S1, S2, S3. cbn [map]. rewrite ss_vip0, ss_vip1, ss_vip2, ss_backup0, ss_backup1, ss_backup2. split; reflexivity.
Qed.

(** ** C85: the performance map *)
Lemma map_nth_lt {A B} (f : A -> B) l k (d : A) (z : B) : (k < length l)%nat -> nth k (map f l) z = f (nth k l d).
Proof. intros HK. rewrite (nth_indep _ z (f d)) by (now rewrite map_length). apply map_nth. Qed.

Lemma C85_grid_points_fact : forall itp junk (u u0 : usim R) d v, integratedUnit u -> exact2 itp ->
  simTo u (u_w u) = (Ok d, u_w u) -> simFrom itp junk d u0 = Ok v ->
  forall i h g h', nth_error (w_hs (u_w u)) i = Some h -> nth_error (u_rgi u) i = Some g -> h_type h = TCompressor -> nth_error (w_hs (u_w v)) i = Some h' ->
  exists env src, StronglySorted Rlt env /\ StronglySorted Rlt src /\ hd 0 env = h_minT h /\ last env 0 = h_maxT h /\
    match g with Some [a0; a1] => src = a1 /\ (forall e, In e a0 -> h_minT h <= e <= h_maxT h -> In e env) | _ => True end /\
    forall sp e s, In e env -> In s src ->
      p_in (h_eval h' sp e s) = p_in (h_eval h (w_setpoint (u_w u)) e s) /\ p_out (h_eval h' sp e s) = p_out (h_eval h (w_setpoint (u_w u)) e s) /\
      p_cop (h_eval h' sp e s) = p_out (h_eval h (w_setpoint (u_w u)) e s) / p_in (h_eval h (w_setpoint (u_w u)) e s).
Proof.
  intros itp junk u u0 d v HU HX ET EF i h g h' Hh Hg HT Hh'.
  destruct (integrated_rt itp junk u u0 HU) as (d2 & v2 & ds & rs & E1 & E2 & L1 & L2 & HR & A1 & N1 & _).
  rewrite E1 in ET. injection ET as <-. rewrite E2 in EF. injection EF as <-.
  assert (Hi : (i < length (w_hs (u_w u)))%nat) by (apply nth_error_Some; congruence).
  destruct (nth_error_some ds i ltac:(lia)) as (di & Hd). destruct (nth_error_some rs i ltac:(lia)) as (r & Hr).
  rewrite A1 in Hh'. unfold linkAll in Hh'. cbn [dp_hs dp_primary] in Hh'.
  rewrite nth_error_map, (nth_error_combine _ _ _ _ _ Hd Hr) in Hh'. cbn [option_map] in Hh'. destruct r as [[h2 g2] nm]. injection Hh' as <-.
  destruct (iu_comp u HU i h Hh HT) as (_ & HI). specialize (HI g Hg).
  destruct (sr_cond _ _ _ _ _ _ _ _ _ (HR i h g di _ Hh Hg Hd Hr) HT) as (src & _ & _ & _ & _ & _ & _ & EV & SS & SG & _). cbn [fst snd] in EV.
  match goal with |- context[h_eval (link ?a ?b ?c ?q ?e) ] => destruct (link_facts a b c q e) as (_ & _ & _ & _ & _ & _ & _ & _ & _ & _ & _ & _ & _ & _ & _ & _ & LE & _) end.
  rewrite LE, EV. destruct (envAxis_ok h g (io_range _ _ _ HI)) as (SE & HE1 & HE2 & HE3).
  exists (envAxis h g), src. splits; auto.
  - destruct g as [[|a0 [|a1 [|]]]|]; auto. split; [exact SG|]. intros e He Hr'. unfold envAxis.
    destruct (C61_trim_fact (a0 ++ [h_minT h; h_maxT h]) (h_minT h) (h_maxT h)) as (_ & I & _). apply I. split; [apply in_or_app; auto|auto].
  - intros sp e s He Hs. destruct (In_nth _ _ 0 He) as (a & Ha & Ea). destruct (In_nth _ _ 0 Hs) as (b & Hb & Eb).
    unfold interpolated. cbn [length Nat.ltb Nat.leb].
    assert (IX : forall f : perf R -> R, itp (h_config h) [envAxis h g; src] (map f (evals2 h (w_setpoint (u_w u)) (envAxis h g) src)) [e; s] =
       f (h_eval h (w_setpoint (u_w u)) e s)).
    { intros f. rewrite <- Ea, <- Eb. rewrite HX; auto.
      - unfold evals2. rewrite map_map.
        assert (LT : (a * length src + b < length (list_prod (envAxis h g) src))%nat) by (rewrite list_prod_len; nia).
        rewrite (map_nth_lt _ _ _ (0, 0)) by exact LT. rewrite list_prod_nth by auto. reflexivity.
      - unfold evals2. rewrite !map_length, list_prod_len. reflexivity. }
    rewrite !IX. pose proof (io_in _ _ _ HI) as HN. destruct (u_cop u); cbn [p_in p_out p_cop].
    + splits; auto; cbv beta iota; num_simpl; field; now apply HN.
    + splits; auto.
Qed.

Definition index (x : R) : list R -> nat := fix go l := match l with [] => O | y :: r => if Reqb' y x then O else S (go r) end.
Definition lookupItp (cfg : coil) (axes : list (list R)) (v : list R) (target : list R) : R :=
  match axes, target with [xs; ys], [x; y] => nth (index x xs * length ys + index y ys) v 0 | _, _ => 0 end.
Lemma index_nth : forall l i, StronglySorted Rlt l -> (i < length l)%nat -> index (nth i l 0) l = i.
Proof.
  induction l as [|x l IH]; intros i HS Hi; [cbn in Hi; lia|]. inversion HS as [|? ? HS' HF]; subst. destruct i as [|i]; cbn [nth index].
  - destruct (Reqb' x x) eqn:E; auto. apply Reqb'_false in E. congruence.
  - assert (Hi' : (i < length l)%nat) by (cbn in Hi; lia). rewrite Forall_forall in HF. specialize (HF (nth i l 0) (nth_In _ _ Hi')).
    destruct (Reqb' x (nth i l 0)) eqn:E; [apply Reqb'_true in E; lra|]. f_equal. now apply IH.
Qed.
Lemma C85_example_fact : exact2 lookupItp /\ integratedUnit (exSim [20; 30]).
Proof.
  split; [|apply exSim_ok]. intros cfg xs ys v i j HX HY HL Hi Hj. unfold lookupItp. now rewrite !index_nth.
Qed.

Lemma C85_defrost_lost_fact : forall itp junk (u u0 : usim R) d v, integratedUnit u ->
  simTo u (u_w u) = (Ok d, u_w u) -> simFrom itp junk d u0 = Ok v ->
  forall i h h', nth_error (w_hs (u_w u)) i = Some h -> h_type h = TCompressor -> nth_error (w_hs (u_w v)) i = Some h' -> h_doDefrost h' = false.
Proof.
  intros itp junk u u0 d v HU ET EF i h h' Hh HT Hh'.
  destruct (integrated_rt itp junk u u0 HU) as (d2 & v2 & ds & rs & E1 & E2 & L1 & L2 & HR & A1 & N1 & _).
  rewrite E1 in ET. injection ET as <-. rewrite E2 in EF. injection EF as <-.
  assert (Hi : (i < length (w_hs (u_w u)))%nat) by (apply nth_error_Some; congruence).
  pose proof (iu_grids u HU) as LG.
  destruct (nth_error_some ds i ltac:(lia)) as (di & Hd). destruct (nth_error_some rs i ltac:(lia)) as (r & Hr). destruct (nth_error_some (u_rgi u) i ltac:(lia)) as (g & Hg).
  rewrite A1 in Hh'. unfold linkAll in Hh'. cbn [dp_hs dp_primary] in Hh'.
  rewrite nth_error_map, (nth_error_combine _ _ _ _ _ Hd Hr) in Hh'. cbn [option_map] in Hh'. destruct r as [[h2 g2] nm]. injection Hh' as <-.
  destruct (sr_cond _ _ _ _ _ _ _ _ _ (HR i h g di _ Hh Hg Hd Hr) HT) as (src & _ & _ & _ & _ & _ & _ & EV & SS & SG & SD). cbn [fst snd] in SD.
  match goal with |- context[h_doDefrost (link ?a ?b ?c ?q ?e) ] => destruct (link_facts a b c q e) as (_ & _ & _ & _ & _ & _ & _ & _ & _ & _ & _ & _ & _ & _ & _ & _ & _ & LE) end.
  congruence.
Qed.
Lemma C85_defrost_refuted_fact : exists (u : usim R) i h, integratedUnit u /\ nth_error (w_hs (u_w u)) i = Some h /\ h_type h = TCompressor /\ h_doDefrost h = true /\
  forall itp junk u0, exists d v h', simTo u (u_w u) = (Ok d, u_w u) /\ simFrom itp junk d u0 = Ok v /\ nth_error (w_hs (u_w v)) i = Some h' /\ h_doDefrost h' = false.
Proof.
  set (c := exHS (T:=R) TCompressor false (Some 1%nat) exLower [exOn exLower (nofZ 5)] [exOff (nofZ 60)] 0).
  set (u := mkusim (set_w_hs (upd (w_hs (exUnit [20; 30])) 2 (set_h_doDefrost true c)) (exUnit [20; 30])) ["upper"; "lower"; "compressor"]%string [None; None; None] true).
  assert (HU : integratedUnit u).
  { destruct (exSim_ok [20; 30]) as [A1 A2 A3 A4 A5 A6 A7 A8 A9 A10].
    assert (HS : w_hs (u_w u) = [exHS TResistance true None exUpper [exOn exUpper (nofZ 15)] [] 2; exHS TResistance false None exLower [] [] 0; set_h_doDefrost true c]) by reflexivity.
    constructor; rewrite ?HS; auto.
    - intros h j [<-|[<-|[<-|[]]]] Hj; cbn in Hj; cbn; intuition (try discriminate). injection H as <-. lia.
    - intros i j hi hj A B C D.
      assert (G : forall k hk, nth_error [exHS TResistance true None exUpper [exOn exUpper (nofZ 15)] [] 2; exHS TResistance false None exLower [] [] 0; set_h_doDefrost true c] k = Some hk -> h_vip hk = true -> k = 0%nat).
      { intros [|[|[|k]]] hk X Y; cbn in X; try discriminate; auto; try (destruct k; discriminate); injection X as <-; discriminate. }
      rewrite (G i hi), (G j hj); auto.
    - intros h [<-|[<-|[<-|[]]]]; [apply (A7 (exHS TResistance true None exUpper [exOn exUpper (nofZ 15)] [] 2)); now left|
        apply (A7 (exHS TResistance false None exLower [] [] 0)); right; now left|apply (A7 c); right; right; now left].
    - intros h l [<-|[<-|[<-|[]]]]; [apply (A8 (exHS TResistance true None exUpper [exOn exUpper (nofZ 15)] [] 2)); now left|
        apply (A8 (exHS TResistance false None exLower [] [] 0)); right; now left|apply (A8 c); right; right; now left].
    - intros [|[|[|i]]] h X Y; cbn in X; try discriminate; try (destruct i; discriminate); injection X as <-; try discriminate.
      split; [reflexivity|]. intros g Hg. destruct (A9 2%nat c eq_refl eq_refl) as (_ & Q). destruct (Q g Hg). constructor; auto.
    - intros _. eexists. split; reflexivity. }
  exists u, 2%nat, (set_h_doDefrost true c). splits; auto; try reflexivity.
  intros itp junk u0. destruct (C84_integrated_fact itp junk u u0 HU) as (d & v & E1 & E2 & F & _).
  destruct (nth_error (w_hs (u_w v)) 2) as [h'|] eqn:Eh.
  - exists d, v, h'. splits; auto. now apply (C85_defrost_lost_fact itp junk u u0 d v HU E1 E2 2 (set_h_doDefrost true c) h' eq_refl eq_refl).
  - apply Forall2_length in F. apply nth_error_None in Eh. rewrite <- F in Eh. cbn in Eh. lia.
Qed.
