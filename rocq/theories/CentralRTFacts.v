(** Proofs of the theorems stated in PropsCentralRT.v: Properties of central systems written to the data model and read back *)

From Coq Require Import ZArith String List Bool Reals Lra Lia Floats Sorted.
From Verif Require Import Num FNum Base Units Utils Types TankM Logic HeatSrc Step Setters Perf DataModel Spec SpecDist.
From Verif Require Import RList FrameProofs SimFrame ControlProofs DistFacts PerfFacts StepEnergy SeqProofs DataModelFacts RoundTripFacts CentralFacts Example.
Import ListNotations.
Local Open Scope R_scope.
(** ** Inversion *)
Section Inv.
  Context {T : Type} {N : Num T}.
  Notation W := (hpwh T).
  Lemma mapM_inv {A B} (f : A -> M W B) : (forall a, spM (f a)) -> forall l w bs w', mapM f l w = (Ok bs, w') -> length bs = length l /\
    forall i a b, nth_error l i = Some a -> nth_error bs i = Some b -> exists w1 w2, f a w1 = (Ok b, w2) /\ spOnly w w1.
  Proof.
    intros HF. induction l as [|x l IH]; intros w bs w' E; cbn [mapM] in E.
    - injection E as <- _. split; [reflexivity|]. intros [|i] a b HA; discriminate.
    - apply bind_inv in E. destruct E as (b & w1 & E1 & E). apply bind_inv in E. destruct E as (cs & w2 & E2 & E). injection E as <- _.
      destruct (IH _ _ _ E2) as (L & HI). split; [cbn; lia|]. intros [|i] a c HA HB; cbn in HA, HB.
      + injection HA as <-. injection HB as <-. exists w, w1. split; [exact E1|apply sp_refl].
      + destruct (HI i a c HA HB) as (w3 & w4 & E3 & S3). exists w3, w4. split; [exact E3|]. eapply sp_trans; [|exact S3]. eapply HF; eauto.
  Qed.
  Lemma readSources_inv (rd : readSrc) : forall ds rs, readSources rd ds = Ok rs -> length rs = length ds /\
    forall i d r, nth_error ds i = Some d -> nth_error rs i = Some r -> exists h, rd d = Ok (h, snd (fst r)) /\ hsFrom d h = Ok (fst (fst r), snd r).
  Proof.
    induction ds as [|x ds IH]; intros rs E; cbn [readSources] in E.
    - injection E as <-. split; [reflexivity|]. intros [|i] d r HA; discriminate.
    - destruct (rd x) as [[h g]|e|e|] eqn:E1; try discriminate. cbn [obind] in E. destruct (hsFrom x h) as [[h' nm]|e|e|] eqn:E2; try discriminate. cbn [obind] in E.
      destruct (readSources rd ds) as [rest|e|e|] eqn:E3; try discriminate. cbn [obind] in E. injection E as <-.
      destruct (IH rest eq_refl) as (L & HI). split; [cbn; lia|]. intros [|i] d r HA HB; cbn in HA, HB.
      + injection HA as <-. injection HB as <-. exists h. split; auto.
      + eauto.
  Qed.
  Lemma nameOf_inv names o r : nameOf names o = Ok r -> r = nameAt names o /\ (forall j, o = Some j -> (j < length names)%nat).
  Proof.
    destruct o as [j|]; cbn; intros E.
    - destruct (nth_error names j) eqn:EN; [|discriminate]. injection E as <-. split; [reflexivity|]. intros k [= <-]. apply nth_error_Some. congruence.
    - injection E as <-. split; [reflexivity|discriminate].
  Qed.
  Lemma lift_inv' {A} (a : outc A) (w : W) x w' : lift a w = (Ok x, w') -> a = Ok x /\ w' = w.
  Proof. unfold lift. intros E. injection E as -> ->. auto. Qed.
  Lemma hsTo_inv names i (h : hsrc T) g cop w d w' : hsTo names i h g cop w = (Ok d, w') -> exists nm k s, nth_error names i = Some nm /\
    sourceTo h g cop w = (Ok (k, s), w') /\
    d = mkdhsc (Some nm) k s (Some (wdTo (h_dist h))) (setLogics (h_turnOn h)) (setLogics (h_shutOff h))
                (option_map logicTo (h_standby h)) (nameAt names (h_backup h)) (nameAt names (h_followed h)) (nameAt names (h_companion h)) /\
    (forall j, h_backup h = Some j \/ h_followed h = Some j \/ h_companion h = Some j -> (j < length names)%nat).
  Proof.
    intros E. unfold hsTo in E.
    apply bind_inv in E. destruct E as (x1 & w1 & E1 & E). apply lift_inv' in E1. destruct E1 as [E1 ->]. apply nameOf_inv in E1. destruct E1 as [-> N1].
    apply bind_inv in E. destruct E as (x2 & w2 & E2 & E). apply lift_inv' in E2. destruct E2 as [E2 ->]. apply nameOf_inv in E2. destruct E2 as [-> N2].
    apply bind_inv in E. destruct E as (x3 & w3 & E3 & E). apply lift_inv' in E3. destruct E3 as [E3 ->]. apply nameOf_inv in E3. destruct E3 as [-> N3].
    apply bind_inv in E. destruct E as (x4 & w4 & E4 & E). apply lift_inv' in E4. destruct E4 as [E4 ->]. apply nameOf_inv in E4. destruct E4 as [-> N4].
    apply bind_inv in E. destruct E as ([k s] & w5 & E5 & E). injection E as <- <-.
    destruct (nth_error_some names i (N1 i eq_refl)) as (nm & Hnm). exists nm, k, s. cbn [nameAt]. rewrite Hnm.
    split; [reflexivity|]. split; [exact E5|]. split; [reflexivity|]. intros j [Hj|[Hj|Hj]]; eauto.
  Qed.
  Lemma setSetpointC_inv x (w : W) a w' : setSetpoint x U_C w = (Ok a, w') -> w' = set_w_setpoint x w.
  Proof.
    intros E. unfold setSetpoint in E. apply bind_inv in E. destruct E as (y & w3 & E2 & E3). cbn [tempToC] in E2. injection E2 as <- <-.
    unfold setSetpointC in E3. unfold bind at 1, get at 1 in E3. apply bind_inv in E3. destruct E3 as ([[] m] & w4 & E3 & E4); [|discriminate].
    unfold lift in E3. destruct (setpointPossible x w); try discriminate. injection E3 as _ <-. now injection E4 as _ <-.
  Qed.
End Inv.

(** ** The map written for an external compressor *)
Definition evals3 (h : hsrc R) (env src lvg : list R) : list (perf R) :=
  map (fun '(e, (s, o)) => h_eval h (o - h_shxHot h) e s) (list_prod env (list_prod src lvg)).

(** the compressor of a central system: with or without a grid of its own *)
Record externalOK (h : hsrc R) (g : option (list (list R))) (cop : bool) : Prop := {
  eo_coil : h_config h = External;
  eo_range : h_minT h <= h_maxT h;
  eo_stby : 0 <= h_stbyPwr h;
  eo_low : -27315 / 100 < h_mlAir h \/ (h_mlAir h = -27315 / 100 /\ h_mlOut h = 100);
  eo_shx : 0 < h_shxPump h \/ (h_shxCold h = 0 /\ h_shxHot h = 0 /\ h_shxPump h = 0);
  eo_rd : 0 <= h_rdPwr h;
  eo_grid : match g with None => True | Some [a; b; c] => StronglySorted Rlt b /\ StronglySorted Rlt c | Some _ => False end;
  eo_out : forall sp e s, p_out (h_eval h sp e s) = p_cop (h_eval h sp e s) * p_in (h_eval h sp e s);
  eo_in : cop = true -> forall sp e s, p_in (h_eval h sp e s) <> 0 }.

Lemma map_CK (l : list R) : map C_TO_K (map K_TO_C l) = l.
Proof. rewrite map_map. rewrite <- (map_id l) at 2. apply map_ext. exact CK. Qed.
Lemma CK_lt (a b : R) : a < b <-> C_TO_K a < C_TO_K b.
Proof. unfold C_TO_K, absolute_zeroT, dec. num_simpl. lra. Qed.
Lemma sorted_map (f : R -> R) : (forall a b, a < b -> f a < f b) -> forall l, StronglySorted Rlt l -> StronglySorted Rlt (map f l).
Proof.
  intros HF. induction l as [|x l IH]; intros HS; [constructor|]. inversion HS as [|? ? HS' HA]; subst. cbn. constructor; auto.
  apply Forall_forall. intros y Hy. apply in_map_iff in Hy. destruct Hy as (z & <- & Hz). rewrite Forall_forall in HA. auto.
Qed.
Lemma trim_ok (v : list R) lo hi : lo <= hi -> In lo v -> In hi v -> StronglySorted Rlt (trimGridVector v lo hi) /\
     hd 0 (trimGridVector v lo hi) = lo /\ last (trimGridVector v lo hi) 0 = hi /\ trimGridVector v lo hi <> [].
Proof.
  intros HR A B. destruct (C61_trim_fact v lo hi) as (S & I & E). destruct (E HR A B) as (E1 & E2). splits; auto.
  intros X. specialize (I lo). rewrite X in I. apply I. split; [auto|lra].
Qed.
Definition envAxis3 (h : hsrc R) (g : option (list (list R))) : list R :=
  match g with Some (a0 :: _) => trimGridVector (a0 ++ [h_minT h; h_maxT h])%list (h_minT h) (h_maxT h) | _ => envAxisExt h end.
Lemma envAxis3_ok h g : h_minT h <= h_maxT h -> StronglySorted Rlt (envAxis3 h g) /\ hd 0 (envAxis3 h g) = h_minT h /\ last (envAxis3 h g) 0 = h_maxT h /\
  envAxis3 h g <> [].
Proof.
  intros HR. unfold envAxis3, envAxisExt. destruct g as [[|a0 r]|]; apply trim_ok; auto; try (apply in_or_app; right); try (now left);
  repeat match goal with |- In _ [_] => left; reflexivity | |- In _ (_ :: _) => apply in_cons end.
Qed.

Lemma fun_mapM (h : hsrc R) : forall l w ps w',
  mapM (fun '(e, (s, o)) => bind (setSetpoint (nsub (K_TO_C o) (h_shxHot h)) U_C) (fun _ => bind get (fun w => ret (h_eval h (w_setpoint w) (K_TO_C e) (K_TO_C s))))) l w = (Ok ps, w') ->
  ps = map (fun '(e, (s, o)) => h_eval h (K_TO_C o - h_shxHot h) (K_TO_C e) (K_TO_C s)) l.
Proof.
  induction l as [|(e & s & o) l IH]; intros w ps w' E; cbn [mapM] in E; [now injection E as <- _|].
  apply bind_inv in E. destruct E as (b & w1 & E1 & E). apply bind_inv in E. destruct E as (cs & w2 & E2 & E). injection E as <- _.
  apply IH in E2. apply bind_inv in E1. destruct E1 as ([] & w3 & E1 & E3). apply setSetpointC_inv in E1. subst w3.
  unfold bind, get, ret in E3. injection E3 as <- _. cbn [map]. apply (f_equal2 cons); [destruct w; reflexivity|exact E2].
Qed.
Lemma list_prod_map {A B C D} (f : A -> C) (g : B -> D) (a : list A) (b : list B) :
  list_prod (map f a) (map g b) = map (fun '(x, y) => (f x, g y)) (list_prod a b).
Proof. induction a as [|x a IH]; [reflexivity|]. cbn. rewrite map_app, !map_map, IH. reflexivity. Qed.

Definition externalMap (h : hsrc R) (env src lvg : list R) : dcond :=
  mkdcond None (toIf (Rltb 0 (h_stbyPwr h)) (1000 * h_stbyPwr h)) (Some (h_hyst h)) (Some (C_TO_K (h_maxSet h))) (Some (h_doDefrost h))
    (Some (mkdmap (Some (map C_TO_K env)) (Some (map C_TO_K src)) (Some (map C_TO_K lvg)) (map p_in (evals3 h env src lvg)) (map p_out (evals3 h env src lvg))))
    (toIf (Rltb 0 (h_rdPwr h)) (KW_TO_W (h_rdPwr h), dF_TO_dC (h_rdLift h), F_TO_K (h_rdBelow h)))
    (toIf (Rltb (dec (-27315) 100) (h_mlAir h)) (C_TO_K (h_mlOut h), C_TO_K (h_mlAir h))).
Lemma atwTo_inv (h : hsrc R) g cop w c w' : externalOK h g cop -> atwTo h g w = (Ok c, w') -> exists src lvg,
  c = externalMap h (envAxis3 h g) src lvg /\ StronglySorted Rlt src /\ StronglySorted Rlt lvg /\
  match g with Some [a0; a1; a2] => src = a1 /\ lvg = a2 | _ => True end.
Proof.
  intros [HC HR HB HW HX HD HG HO HI] E. destruct g as [[|a0 [|a1 [|a2 [|a3 r]]]]|]; try exact (False_ind _ HG).
  - exists a1, a2. unfold atwTo in E.
    match type of E with context[mapM ?f ?l] => change (mapM f l) with (mapM (gridEval h) l) in E end.
    unfold bind at 1 in E. rewrite grid_mapM in E. unfold ret in E. apply (f_equal fst) in E. cbn [fst] in E.
    assert (E' : c = externalMap h (envAxis3 h (Some [a0; a1; a2])) a1 a2).
    { match type of E with Ok ?q = Ok _ => transitivity q; [congruence|] end. unfold externalMap, evals3, envAxis3. num_simpl. reflexivity. }
    splits; try tauto.
  - unfold atwTo in E. unfold bind at 1, get at 1 in E. cbv beta zeta in E.
    apply bind_inv in E. destruct E as (ps & w1 & E1 & E). apply bind_inv in E. destruct E as ([] & w2 & E2 & E).
    apply fun_mapM in E1. exists (map K_TO_C (srcAxisExt h)), (map K_TO_C (lvgAxisExt h w)).
    assert (EP : ps = evals3 h (envAxisExt h) (map K_TO_C (srcAxisExt h)) (map K_TO_C (lvgAxisExt h w))).
    { rewrite E1. unfold evals3. rewrite (list_prod_map K_TO_C K_TO_C). rewrite <- (map_id (envAxisExt h)) at 2. rewrite (list_prod_map (fun x => x)).
      rewrite <- (map_id (list_prod (srcAxisExt h) (lvgAxisExt h w))) at 1. rewrite (list_prod_map C_TO_K (fun x => x)), !map_map.
      apply map_ext. intros (e & s & o). rewrite KC. reflexivity. }
    clear E1 E2. splits; auto.
    + apply (f_equal fst) in E. unfold ret in E. cbn [fst] in E.
      match type of E with Ok ?q = Ok _ => transitivity q; [congruence|] end. clear E. unfold externalMap, envAxis3. rewrite !map_CK, <- EP. num_simpl.
      assert (EO : map (fun p => p_cop p * p_in p) ps = map p_out ps).
      { rewrite EP. unfold evals3. rewrite !map_map. apply map_ext. intros (e & s & o). symmetry. apply HO. }
      rewrite EO. reflexivity.
    + apply sorted_map; [intros; apply CK_lt; now rewrite !CK|]. unfold srcAxisExt. apply C61_arrange_fact.
    + apply sorted_map; [intros; apply CK_lt; now rewrite !CK|]. unfold lvgAxisExt. apply sorted_map.
      * intros a b Hab. apply (proj1 (CK_lt _ _)). num_simpl. lra.
      * destruct (negb _ && negb _)%bool; [apply C61_trim_fact|]. constructor; constructor.
Qed.

(** ** Reading an external compressor *)
Record freshExt (f : hsrc R) : Prop := {
  fe_fresh : fresh f; fe_type : h_type f = TCompressor; fe_stby : h_stbyPwr f = 0; fe_defrost : h_doDefrost f = false; fe_table : h_defrost f = []; fe_rd : h_rdPwr f = 0;
  fe_low : h_mlAir f = -27315 / 100 /\ h_mlOut f = 100 }.
Record readExt itp cop (h f : hsrc R) (env src lvg : list R) (h' : hsrc R) : Prop := {
  re_fresh : fresh h'; re_type : h_type h' = TCompressor; re_hyst : h_hyst h' = h_hyst h; re_maxSet : h_maxSet h' = h_maxSet h;
  re_config : h_config h' = External; re_stby : h_stbyPwr h' = h_stbyPwr h; re_minT : h_minT h' = h_minT h; re_maxT : h_maxT h' = h_maxT h;
  re_defrost : h_doDefrost h' = h_doDefrost h; re_table : h_doDefrost h = true -> h_defrost h' = [(17, 1); (35, 8865 / 10000); (47, 1)];
  re_low : h_mlOut h' = h_mlOut h /\ h_mlAir h' = h_mlAir h;
  re_rd : h_rdPwr h' = h_rdPwr h; re_rd2 : 0 < h_rdPwr h -> h_rdLift h' = h_rdLift h /\ h_rdBelow h' = h_rdBelow h;
  re_shx : h_shxCold h' = h_shxCold f /\ h_shxHot h' = h_shxHot f /\ h_shxPump h' = h_shxPump f;
  re_eval : h_eval h' = interpolated itp External (h_shxHot f) cop [env; src; lvg] (map p_in (evals3 h env src lvg))
     (map (fun p => if cop then p_out p / p_in p else p_out p) (evals3 h env src lvg)) }.
Lemma KWW (p : R) : W_TO_KW (KW_TO_W p) = p.
Proof. unfold W_TO_KW, KW_TO_W. num_simpl. field. Qed.
Lemma KWW' (p : R) : W_TO_KW (1000 * p) = p.
Proof. unfold W_TO_KW. num_simpl. field. Qed.
Lemma dFC (x : R) : dC_TO_dF (dF_TO_dC x) = x.
Proof. unfold dC_TO_dF, dF_TO_dC, FperC, dec. num_simpl. field. Qed.
Lemma KF (x : R) : K_TO_F (F_TO_K x) = x.
Proof. unfold K_TO_F, F_TO_K, C_TO_F, F_TO_C, K_TO_C, C_TO_K, absolute_zeroT, FperC, offsetF, dec. num_simpl. field. Qed.
Lemma atwFrom_ok itp cop (h f : hsrc R) g src lvg : externalOK h g cop -> freshExt f ->
  exists h', atwFrom itp cop (externalMap h (envAxis3 h g) src lvg) f = Ok (h', Some [envAxis3 h g; src; lvg]) /\ readExt itp cop h f (envAxis3 h g) src lvg h'.
Proof.
  intros [HC HR HB HW HX HD HG HO HI] [F1 F2 F3 F4 F5 F6 [F7 F8]]. destruct (envAxis3_ok h g HR) as (ES & E1 & E2 & E3). set (env := envAxis3 h g) in *. clearbody env.
  unfold atwFrom, externalMap, condCommon. cbn [dc_hyst dc_maxRef dc_map dc_defrost dc_stby dc_resDef dc_low from option_map].
  unfold readMap. cbn [dm_env dm_src dm_lvg dm_in dm_cap axisC app]. rewrite !map_KC.
  destruct env as [|e r] eqn:Ee; [congruence|]. cbn [map obind].
  rewrite caps_rt.
  2:{ intros Hc p Hp. unfold evals3 in Hp. apply in_map_iff in Hp. destruct Hp as ((e' & s' & o') & <- & _). now apply HI. }
  cbn [obind length Nat.ltb Nat.leb].
  assert (L : K_TO_C (last (map C_TO_K r) (C_TO_K e)) = h_maxT h).
  { rewrite (last_map_C (e :: r) e); auto. apply map_KC. }
  destruct F1 as [A1 A2 A3 A4 A5 A6].
  assert (EW : -27315 / 100 < h_mlAir h /\ Rltb (dec (-27315) 100) (h_mlAir h) = true \/ (h_mlAir h = -27315 / 100 /\ h_mlOut h = 100 /\ Rltb (dec (-27315) 100) (h_mlAir h) = false)).
  { unfold dec. num_simpl. destruct HW as [HW|[HW1 HW2]]; [left; split; [exact HW|now apply Rltb_true]|right; splits; auto; apply Rltb_false; lra]. }
  destruct EW as [[HW1 EW]|(HW1 & HW2 & EW)]; rewrite EW; cbn [toIf];
  (destruct (Rltb 0 (h_stbyPwr h)) eqn:EP; [apply Rltb_true in EP|apply Rltb_false in EP]);
  (destruct (Rltb 0 (h_rdPwr h)) eqn:EQ; [apply Rltb_true in EQ|apply Rltb_false in EQ]);
  destruct (h_doDefrost h) eqn:EF; cbn [toIf]; unfold setupDefrostMap, defaultDerate; wsimpl; eexists; (split; [reflexivity|]);
  (constructor; wsimpl; rewrite ?KWW, ?KWW', ?dFC, ?KF, ?KC, ?F5, ?F7, ?F8; auto; try (constructor; wsimpl; auto; fail); try lra; try congruence; intros; cbn [app]; unfold dec; num_simpl; reflexivity).
Qed.

(** ** Whole central systems *)

(** a central system whose heat sources have distinct names and one compressor and at most one VIP *)
Record centralUnit (u : usim R) : Prop := {
  cu_names : length (u_names u) = length (w_hs (u_w u));
  cu_grids : length (u_rgi u) = length (w_hs (u_w u));
  cu_distinct : NoDup (u_names u);
  cu_nonempty : ~ In EmptyString (u_names u);
  cu_vip : forall i j hi hj, nth_error (w_hs (u_w u)) i = Some hi -> nth_error (w_hs (u_w u)) j = Some hj ->
     h_vip hi = true -> h_vip hj = true -> i = j;
  cu_dist : forall h, In h (w_hs (u_w u)) -> wd_isValid (h_dist h) = true;
  cu_logics : forall h l, In h (w_hs (u_w u)) -> In l (h_turnOn h ++ h_shutOff h) \/ h_standby h = Some l -> l_isValid l = true;
  cu_comp : forall i h, nth_error (w_hs (u_w u)) i = Some h -> h_type h = TCompressor ->
     w_compIx (u_w u) = Z.of_nat i /\ forall g, nth_error (u_rgi u) i = Some g -> externalOK h g (u_cop u);
  cu_index : (0 <= w_compIx (u_w u))%Z /\ exists h, nth_error (w_hs (u_w u)) (Z.to_nat (w_compIx (u_w u))) = Some h /\ h_type h = TCompressor;
  cu_nodes : (0 < numNodes (w_tank (u_w u)))%nat }.

(** the members that only an external compressor has *)
Record sameExternal (h h' : hsrc R) : Prop := {
  se_ports : h_extIn h' = h_extIn h /\ h_extOut h' = h_extOut h;
  se_pass : h_multipass h' = h_multipass h;
  se_flow : h_multipass h = true -> h_mpFlow h' = h_mpFlow h;
  se_shx : h_shxCold h' = h_shxCold h /\ h_shxHot h' = h_shxHot h /\ h_shxPump h' = h_shxPump h;
  se_low : h_mlOut h' = h_mlOut h /\ h_mlAir h' = h_mlAir h;
  se_rd : h_rdPwr h' = h_rdPwr h /\ (0 < h_rdPwr h -> h_rdLift h' = h_rdLift h /\ h_rdBelow h' = h_rdBelow h);
  se_defrost : h_doDefrost h' = h_doDefrost h /\ (h_doDefrost h = true -> h_defrost h' = [(17, 1); (35, 8865 / 10000); (47, 1)]) }.

Definition ext_members (h : hsrc R) := (h_shxCold h, h_shxHot h, h_shxPump h, (h_mlOut h, h_mlAir h), (h_rdPwr h, h_rdLift h, h_rdBelow h), (h_doDefrost h, h_defrost h)).
Lemma hsFrom_more d (f f' : hsrc R) nm : hsFrom d f = Ok (f', nm) -> ext_members f' = ext_members f.
Proof.
  unfold hsFrom. intros E. destruct (makeAll (from (dh_on d) [])) as [on|e|e|]; try discriminate. cbn [obind] in E.
  destruct (makeAll (from (dh_off d) [])) as [off|e|e|]; try discriminate. cbn [obind] in E.
  destruct (match dh_stby d with None => Ok None | Some l => logicMake l end) as [st|e|e|]; try discriminate. cbn [obind] in E.
  injection E as <- _. unfold ext_members. destruct st, (dh_dist d) as [[hs ws]|]; wsimpl; reflexivity.
Qed.
Lemma link_more ids pr (d : dhsc R) (h : hsrc R) nm : ext_members (link ids pr d h nm) = ext_members h.
Proof. unfold link, ext_members. destruct (dh_backup d), (dh_followed d), (dh_companion d); wsimpl; reflexivity. Qed.

Definition ports (ce : dcentral (T:=R)) (n : Z) (c : hsrc R) : hsrc R :=
  let c1 := set_h_extIn (Rtrunc (from (ce_in ce) 0 * IZR n)) (set_h_extOut (Rtrunc (from (ce_out ce) 0 * IZR n)) c) in
  set_h_config External (match ce_flow ce with Some f => set_h_mpFlow (1000 * f) (set_h_multipass true c1) | None => set_h_multipass false c1 end).
Lemma ports_facts ce n (c : hsrc R) : let c' := ports ce n c in
  ext_members c' = ext_members c /\ h_config c' = External /\ h_extIn c' = Rtrunc (from (ce_in ce) 0 * IZR n) /\ h_extOut c' = Rtrunc (from (ce_out ce) 0 * IZR n) /\
  (match ce_flow ce with Some f => h_multipass c' = true /\ h_mpFlow c' = 1000 * f | None => h_multipass c' = false end) /\
  h_type c' = h_type c /\ h_vip c' = h_vip c /\ h_backup c' = h_backup c /\ h_followed c' = h_followed c /\ h_companion c' = h_companion c /\ h_dist c' = h_dist c /\
  h_turnOn c' = h_turnOn c /\ h_shutOff c' = h_shutOff c /\ h_standby c' = h_standby c /\ h_power c' = h_power c /\ h_hyst c' = h_hyst c /\ h_maxSet c' = h_maxSet c /\
  h_stbyPwr c' = h_stbyPwr c /\ h_minT c' = h_minT c /\ h_maxT c' = h_maxT c /\ h_eval c' = h_eval c.
Proof. unfold ports, ext_members. destruct (ce_flow ce); wsimpl; splits; reflexivity. Qed.

Lemma freshCond_low (junk : hsrc R) : h_mlAir (freshCond junk) = -27315 / 100 /\ h_mlOut (freshCond junk) = 100.
Proof. unfold freshCond. wsimpl. unfold dec. num_simpl. auto. Qed.
Definition startExt (ce : dcentral (T:=R)) (n : nat) (f : hsrc R) : hsrc R :=
  let m := IZR (Z.of_nat n - 1) in
  let h0 := set_h_extIn (Rtrunc (from (ce_in ce) 1 * m)) (set_h_extOut (Rtrunc (from (ce_out ce) 1 * m)) f) in
  let h1 := match ce_flow ce with Some x => set_h_mpFlow (1000 * x) (set_h_multipass true h0) | None => set_h_multipass false h0 end in
  match ce_shx ce with Some (a, b, c) => set_h_shxCold a (set_h_shxHot b (set_h_shxPump c h1)) | None => h1 end.
Lemma startExt_fresh ce n f : freshExt f -> freshExt (startExt ce n f).
Proof.
  intros [[A1 A2 A3 A4 A5 A6] F2 F3 F4 F5 F6 F7]. unfold startExt. cbv zeta.
  destruct (ce_flow ce), (ce_shx ce) as [[[a b] p]|]; (constructor; [constructor|..]); wsimpl; assumption.
Qed.
Lemma freshCond_fresh (junk : hsrc R) : freshExt (freshCond junk).
Proof. constructor; [constructor; reflexivity|reflexivity|reflexivity|reflexivity|reflexivity|reflexivity|exact (freshCond_low junk)]. Qed.
(** the central reader starts from a fresh condenser with the heat exchanger of the system *)
Lemma cenSource_ext itp junk cop n (ce : dcentral (T:=R)) id c di on off st bk fb co : exists f,
  cenSource itp junk cop n ce (mkdhsc id K_airToWater (SATW c) di on off st bk fb co) = atwFrom itp cop c f /\ freshExt f /\
  match ce_shx ce with Some (a, b, p) => h_shxCold f = a /\ h_shxHot f = b /\ h_shxPump f = p | None => h_shxCold f = 0 /\ h_shxHot f = 0 /\ h_shxPump f = 0 end.
Proof.
  exists (startExt ce n (freshCond junk)). split; [reflexivity|]. split; [apply startExt_fresh, freshCond_fresh|].
  assert (Z : forall f : hsrc R, h_shxCold f = 0 /\ h_shxHot f = 0 /\ h_shxPump f = 0 -> match ce_shx ce with Some (a, b, p) => h_shxCold (startExt ce n f) = a /\ h_shxHot (startExt ce n f) = b /\ h_shxPump (startExt ce n f) = p
     | None => h_shxCold (startExt ce n f) = 0 /\ h_shxHot (startExt ce n f) = 0 /\ h_shxPump (startExt ce n f) = 0 end).
  { intros f (F1 & F2 & F3). unfold startExt. cbv zeta. destruct (ce_flow ce), (ce_shx ce) as [[[a b] p]|]; wsimpl; auto. }
  apply Z. splits; reflexivity.
Qed.
Lemma cenSource_res itp junk cop n (ce : dcentral (T:=R)) id p di on off st bk fb co :
  cenSource itp junk cop n ce (mkdhsc id K_resistance (SRes p) di on off st bk fb co) = Ok (set_h_power (p / 1000) (freshRes junk), None).
Proof. reflexivity. Qed.

Definition centralOf (u : usim R) (c : hsrc R) (p : dperf (T:=R)) : dcentral (T:=R) :=
  mkdcentral p (Some (IZR (h_extIn c) / nofN (numNodes (w_tank (u_w u))))) (Some (IZR (h_extOut c) / nofN (numNodes (w_tank (u_w u)))))
    (toIf (h_multipass c) (h_mpFlow c / 1000)) (toIf (Rltb 0 (h_shxPump c)) (h_shxCold c, h_shxHot c, h_shxPump c)).
Lemma simTo_central_inv u d w' : centralUnit u -> simTo u (u_w u) = (Ok d, w') -> exists c ds w1,
  nth_error (w_hs (u_w u)) (Z.to_nat (w_compIx (u_w u))) = Some c /\ h_type c = TCompressor /\
  mapM (fun '(i, (h, g)) => hsTo (u_names u) i h g (u_cop u)) (combine (seq 0 (length (w_hs (u_w u)))) (combine (w_hs (u_w u)) (u_rgi u))) (u_w u) = (Ok ds, w1) /\
  d = unitHead u (Some Sys_central) None (Some (centralOf u c (mkdperf (tankTo (w_tank (u_w u))) ds (unitPrimary u)))).
Proof.
  intros HU E. destruct (cu_index u HU) as (HC & c & Hc & HT). destruct (cu_comp u HU _ c Hc HT) as (_ & Q).
  assert (Hg : exists g, nth_error (u_rgi u) (Z.to_nat (w_compIx (u_w u))) = Some g).
  { apply nth_error_some. rewrite (cu_grids u HU). apply nth_error_Some. congruence. }
  destruct Hg as (g & Hg). specialize (Q g Hg). pose proof (eo_coil _ _ _ Q) as HX.
  unfold simTo in E. unfold bind at 1, get at 1 in E. cbv beta zeta in E.
  pose proof (proj2 (Z.leb_le 0 (w_compIx (u_w u))) HC) as EC. rewrite EC in E.
  unfold bind at 1 in E. unfold bind at 1, lift at 1 in E. unfold compCoil in E. destruct (Z.ltb_spec (w_compIx (u_w u)) 0); [lia|]. rewrite Hc in E. unfold ret at 1 in E.
  rewrite HX in E. cbn [isExt] in E.
  apply bind_inv in E. destruct E as (ce & w2 & E1 & E). injection E as <- <-.
  unfold centralTo in E1. apply bind_inv in E1. destruct E1 as (p & w3 & E2 & E1). unfold bind at 1, get at 1 in E1.
  pose proof (spM_perfTo u _ _ _ E2) as (x & ->). wsimpl_in E1. rewrite Hc in E1. injection E1 as <- <-.
  unfold perfTo in E2. apply bind_inv in E2. destruct E2 as (ds & w4 & E2 & E3). injection E3 as <- _.
  exists c, ds, w4. splits; auto. unfold unitHead, centralOf. rewrite EC. reflexivity.
Qed.

(** one heat source of a central system read back *)
Record sourceRead3 itp (u : usim R) (i : nat) (h : hsrc R) (g : option (list (list R))) (d : dhsc R)
  (r : hsrc R * option (list (list R)) * string) : Prop := {
  s3_id : dh_id d = nth_error (u_names u) i;
  s3_name : nth_error (u_names u) i = Some (snd r);
  s3_backup : dh_backup d = nameAt (u_names u) (h_backup h);
  s3_followed : dh_followed d = nameAt (u_names u) (h_followed h);
  s3_companion : dh_companion d = nameAt (u_names u) (h_companion h);
  s3_assoc : forall j, h_backup h = Some j \/ h_followed h = Some j \/ h_companion h = Some j -> (j < length (u_names u))%nat;
  s3_kind : dh_kind d = match h_type h with TResistance => K_resistance | TCompressor => K_airToWater end;
  s3_type : h_type (fst (fst r)) = h_type h;
  s3_none : h_backup (fst (fst r)) = None /\ h_followed (fst (fst r)) = None /\ h_companion (fst (fst r)) = None;
  s3_dist : h_dist (fst (fst r)) = Rel (h_dist h);
  s3_on : Forall2 sameLogic (h_turnOn h) (h_turnOn (fst (fst r)));
  s3_off : Forall2 sameLogic (h_shutOff h) (h_shutOff (fst (fst r)));
  s3_standby : sameLogicO (h_standby h) (h_standby (fst (fst r)));
  s3_power : h_type h = TResistance -> h_power (fst (fst r)) = h_power h;
  s3_cond : h_type h = TCompressor -> exists src lvg f h1, readExt itp (u_cop u) h f (envAxis3 h g) src lvg h1 /\
    ext_members (fst (fst r)) = ext_members h1 /\ h_eval (fst (fst r)) = h_eval h1 /\
    h_hyst (fst (fst r)) = h_hyst h /\ h_maxSet (fst (fst r)) = h_maxSet h /\ h_config (fst (fst r)) = External /\
    h_stbyPwr (fst (fst r)) = h_stbyPwr h /\ h_minT (fst (fst r)) = h_minT h /\ h_maxT (fst (fst r)) = h_maxT h /\
    h_shxCold f = h_shxCold h /\ h_shxHot f = h_shxHot h /\ h_shxPump f = h_shxPump h /\
    StronglySorted Rlt src /\ StronglySorted Rlt lvg /\ match g with Some [a0; a1; a2] => src = a1 /\ lvg = a2 | _ => True end }.

Lemma sourceTo_ext_inv (h : hsrc R) g cop w k s w' : h_type h = TCompressor -> h_config h = External -> compCoil w = Ok External ->
  sourceTo h g cop w = (Ok (k, s), w') -> exists c, k = K_airToWater /\ s = SATW c /\ atwTo h g w = (Ok c, w').
Proof.
  intros ET EC Ecc E. unfold sourceTo in E. rewrite ET in E. unfold bind at 1, get at 1 in E. unfold bind at 1, lift at 1 in E. rewrite Ecc, EC in E. cbn [isExt] in E.
  apply bind_inv in E. destruct E as (c & w1 & E1 & E). unfold ret in E. exists c. injection E as <- <- <-. auto.
Qed.

Lemma source3_rt itp junk n (u : usim R) c p i h g w d w' : centralUnit u ->
  nth_error (w_hs (u_w u)) (Z.to_nat (w_compIx (u_w u))) = Some c -> h_type c = TCompressor ->
  nth_error (w_hs (u_w u)) i = Some h -> nth_error (u_rgi u) i = Some g -> spOnly (u_w u) w -> hsTo (u_names u) i h g (u_cop u) w = (Ok d, w') ->
  exists r h1, cenSource itp junk (u_cop u) n (centralOf u c p) d = Ok (h1, snd (fst r)) /\ hsFrom d h1 = Ok (fst (fst r), snd r) /\ sourceRead3 itp u i h g d r.
Proof.
  intros HU Hc HTc Hh Hg (x & ->) E. apply hsTo_inv in E. destruct E as (nm & k & s & EN & E & -> & HA).
  pose proof (nth_error_In _ _ Hh) as Hin.
  assert (HL' : forall l, In l (h_turnOn h ++ h_shutOff h) \/ h_standby h = Some l -> l_isValid l = true) by (intros l; exact (cu_logics u HU h l Hin)).
  destruct (h_type h) eqn:ET.
  - destruct (cu_comp u HU i h Hh ET) as (Ei & Q). specialize (Q g Hg).
    assert (h = c) by (rewrite Ei, Nat2Z.id, Hh in Hc; congruence). subst c.
    apply sourceTo_ext_inv in E; auto; [|apply Q|].
    2:{ unfold compCoil. wsimpl. destruct (Z.ltb_spec (w_compIx (u_w u)) 0); [lia|]. rewrite Hc. rewrite (eo_coil _ _ _ Q). reflexivity. }
    destruct E as (dc & -> & -> & E). destruct (atwTo_inv h g (u_cop u) _ _ _ Q E) as (src & lvg & -> & Ss & Sl & Sg). clear E.
    remember (externalMap h (envAxis3 h g) src lvg) as dc eqn:Edc.
    match goal with |- context[mkdhsc ?a _ _ ?b ?c0 ?d0 ?e0 ?f0 ?g0 ?h0] =>
      destruct (cenSource_ext itp junk (u_cop u) n (centralOf u h p) a dc b c0 d0 e0 f0 g0 h0) as (f & EF & FF & FX) end.
    destruct (atwFrom_ok itp (u_cop u) h f g src lvg Q FF) as (h1 & Eh1 & R1). rewrite <- Edc in Eh1. rewrite <- EF in Eh1. clear EF.
    assert (FX' : h_shxCold f = h_shxCold h /\ h_shxHot f = h_shxHot h /\ h_shxPump f = h_shxPump h).
    { cbn [centralOf ce_shx] in FX. destruct (eo_shx _ _ _ Q) as [X|(X1 & X2 & X3)].
      - rewrite (proj2 (Rltb_true 0 (h_shxPump h)) X) in FX. cbn [toIf] in FX. exact FX.
      - assert (Y : Rltb 0 (h_shxPump h) = false) by (apply Rltb_false; lra). rewrite Y in FX. cbn [toIf] in FX. destruct FX as (F1 & F2 & F3). splits; congruence. }
    destruct (hsFrom_ok h K_airToWater (SATW dc) (nameAt (u_names u) (h_backup h)) (nameAt (u_names u) (h_followed h)) (nameAt (u_names u) (h_companion h)) h1 nm HL' (re_fresh _ _ _ _ _ _ _ _ R1)) as (f' & E' & F).
    exists (f', Some [envAxis3 h g; src; lvg], nm), h1. split; [exact Eh1|]. split; [exact E'|].
    pose proof (hsFrom_more _ _ _ _ E') as HM. clear E' Eh1 Edc.
    destruct F as (F1 & F2 & F3 & F4 & F5 & F6 & F7 & F8 & F9 & F10 & F11 & F12 & F13 & F14 & F15 & F16 & F17).
    constructor; cbn [fst snd dh_id dh_backup dh_followed dh_companion dh_kind]; auto; try congruence.
    + rewrite ET. reflexivity.
    + rewrite F5, (re_type _ _ _ _ _ _ _ _ R1). congruence.
    + intros _. exists src, lvg, f, h1. destruct FX' as (X1 & X2 & X3). pose proof R1 as R1'. destruct R1' as [R1' R2 R3 R4 R5 R6 R7 R8 R9 R10 R11 R12 R13 R14 R15].
      split; [exact R1|]. split; [exact HM|]. split; [exact F16|]. split; [congruence|]. split; [congruence|]. split; [congruence|]. split; [congruence|]. split; [congruence|].
      split; [congruence|]. split; [exact X1|]. split; [exact X2|]. split; [exact X3|]. split; [exact Ss|]. split; [exact Sl|exact Sg].
  - unfold sourceTo in E. rewrite ET in E. injection E as <- <- <-.
    destruct (resRead junk (1000 * h_power h / 1000)) as (Q1 & Q2 & Q3).
    destruct (hsFrom_ok h K_resistance (SRes (1000 * h_power h)) (nameAt (u_names u) (h_backup h)) (nameAt (u_names u) (h_followed h)) (nameAt (u_names u) (h_companion h))
       (set_h_power (1000 * h_power h / 1000) (freshRes junk)) nm HL' Q1) as (f' & E' & F).
    exists (f', None, nm), (set_h_power (1000 * h_power h / 1000) (freshRes junk)).
    split; [apply cenSource_res|]. split; [exact E'|].
    destruct F as (F1 & F2 & F3 & F4 & F5 & F6 & F7 & F8 & F9 & _). clear E'. rewrite Q2 in F5. rewrite Q3 in F9.
    constructor; cbn [fst snd dh_id dh_backup dh_followed dh_companion dh_kind]; auto; try congruence.
    + now rewrite ET.
    + intros _. rewrite F9. field.
Qed.

Lemma readSources_total (rd : readSrc (T:=R)) (P : nat -> dhsc R -> hsrc R * option (list (list R)) * string -> Prop) : forall ds k,
  (forall i d, nth_error ds i = Some d -> exists r h1, rd d = Ok (h1, snd (fst r)) /\ hsFrom d h1 = Ok (fst (fst r), snd r) /\ P (k + i)%nat d r) ->
  exists rs, readSources rd ds = Ok rs /\ length rs = length ds /\ forall i d r, nth_error ds i = Some d -> nth_error rs i = Some r -> P (k + i)%nat d r.
Proof.
  induction ds as [|d ds IH]; intros k HP.
  - exists []. splits; auto. intros [|i]; discriminate.
  - destruct (HP 0%nat d eq_refl) as (r & h1 & E1 & E2 & Q).
    destruct (IH (S k)) as (rs & E3 & L & HQ).
    { intros i d' Hd'. replace (S k + i)%nat with (k + S i)%nat by lia. now apply HP. }
    exists (r :: rs). split; [|split; [cbn; lia|]].
    + cbn [readSources]. rewrite E1. cbn [obind]. rewrite E2. cbn [obind]. rewrite E3. cbn [obind]. destruct r as [[a b] c]. reflexivity.
    + intros [|i] d' r' A B; cbn in A, B.
      * injection A as <-. injection B as <-. exact Q.
      * replace (k + S i)%nat with (S k + i)%nat by lia. now apply HQ.
Qed.

Definition portsAt (u : usim R) (ce : dcentral (T:=R)) (i : nat) (h : hsrc R) : hsrc R :=
  if Nat.eqb i (Z.to_nat (w_compIx (u_w u))) then ports ce (Z.of_nat (numNodes (w_tank (u_w u)))) h else h.
Lemma central_rt itp junk u u0 d w' : centralUnit u -> simTo u (u_w u) = (Ok d, w') -> exists c ds rs v,
  nth_error (w_hs (u_w u)) (Z.to_nat (w_compIx (u_w u))) = Some c /\ h_type c = TCompressor /\ simFrom itp junk d u0 = Ok v /\
  length ds = length (w_hs (u_w u)) /\ length rs = length (w_hs (u_w u)) /\
  (forall i h g d r, nth_error (w_hs (u_w u)) i = Some h -> nth_error (u_rgi u) i = Some g -> nth_error ds i = Some d -> nth_error rs i = Some r ->
     sourceRead3 itp u i h g d r) /\
  length (w_hs (u_w v)) = length (w_hs (u_w u)) /\
  (forall i, nth_error (w_hs (u_w v)) i = option_map (portsAt u (centralOf u c (mkdperf (tankTo (w_tank (u_w u))) ds (unitPrimary u))) i)
     (nth_error (linkAll (mkdperf (tankTo (w_tank (u_w u))) ds (unitPrimary u)) rs) i)) /\
  map (fun d => from (dh_id d) EmptyString) ds = u_names u /\ u_names v = u_names u /\ length (u_rgi v) = length (w_hs (u_w u)) /\
  w_tank (u_w v) = set_t_fixed (t_fixed (w_tank (u_w u))) (tankFrom (tankTo (w_tank (u_w u))) (startTank d (w_tank (u_w u0)))) /\
  du_nodes d = Some (Z.of_nat (numNodes (w_tank (u_w u)))) /\
  w_setpoint (u_w v) = w_setpoint (u_w u) /\ w_doDepress (u_w v) = w_doDepress (u_w u) /\
  w_compIx (u_w v) = w_compIx (u_w u) /\ u_cop v = u_cop u.
Proof.
  intros HU E. destruct (simTo_central_inv u d w' HU E) as (c & ds & w1 & Hc & HTc & EM & ->). clear E w'.
  pose proof (cu_names u HU) as LN. pose proof (cu_grids u HU) as LG. destruct (cu_index u HU) as (HC & _).
  set (p := mkdperf (tankTo (w_tank (u_w u))) ds (unitPrimary u)) in *. set (ce := centralOf u c p) in *.
  match type of EM with mapM ?F _ _ = _ => assert (HF : forall a, spM (F a)) by (intros (i & h & g); apply spM_hsTo);
    destruct (mapM_inv F HF _ _ _ _ EM) as (L1 & HM) end. clear HF.
  rewrite !combine_length, seq_length, LG, Nat.min_id, Nat.min_id in L1.
  assert (G : forall i d, nth_error ds i = Some d -> exists r h1, cenSource itp junk (u_cop u) (numNodes (w_tank (u_w u))) ce d = Ok (h1, snd (fst r)) /\ hsFrom d h1 = Ok (fst (fst r), snd r) /\
     (fun i d r => forall h g, nth_error (w_hs (u_w u)) i = Some h -> nth_error (u_rgi u) i = Some g -> sourceRead3 itp u i h g d r) (0 + i)%nat d r).
  { intros i d Hd. assert (Hi : (i < length (w_hs (u_w u)))%nat) by (rewrite <- L1; apply nth_error_Some; congruence).
    destruct (nth_error_some _ i Hi) as (h & Hh). destruct (nth_error_some (u_rgi u) i ltac:(lia)) as (g & Hg).
    assert (Hs : nth_error (combine (seq 0 (length (w_hs (u_w u)))) (combine (w_hs (u_w u)) (u_rgi u))) i = Some (i, (h, g))).
    { apply nth_error_combine; [|now apply nth_error_combine]. destruct (nth_error_some (seq 0 (length (w_hs (u_w u)))) i) as (k & Hk); [now rewrite seq_length|].
      rewrite Hk. apply nth_error_nth with (d := O) in Hk. rewrite seq_nth in Hk by auto. cbn in Hk. congruence. }
    destruct (HM i _ _ Hs Hd) as (wa & wb & EH & ES).
    destruct (source3_rt itp junk (numNodes (w_tank (u_w u))) u c p i h g wa d wb HU Hc HTc Hh Hg ES EH) as (r & h1 & A1 & A2 & A3).
    exists r, h1. split; [exact A1|]. split; [exact A2|]. cbn [Nat.add]. intros h' g' B1 B2. rewrite Hh in B1. rewrite Hg in B2. injection B1 as <-. injection B2 as <-. exact A3. }
  destruct (readSources_total _ _ ds 0 G) as (rs & ER & L2 & HR). clear G HM EM. rewrite L1 in L2.
  assert (N1 : map (fun d => from (dh_id d) EmptyString) ds = u_names u /\ map snd rs = u_names u).
  { assert (GX : forall i, (i < length (w_hs (u_w u)))%nat -> exists d r s, nth_error ds i = Some d /\ nth_error rs i = Some r /\ nth_error (u_names u) i = Some s /\
       dh_id d = Some s /\ snd r = s).
    { intros i Hi. destruct (nth_error_some (w_hs (u_w u)) i Hi) as (h & Hh). destruct (nth_error_some (u_rgi u) i ltac:(lia)) as (g & Hg).
      destruct (nth_error_some ds i ltac:(lia)) as (d & Hd). destruct (nth_error_some rs i ltac:(lia)) as (r & Hr).
      destruct (nth_error_some (u_names u) i ltac:(lia)) as (s & Hs). exists d, r, s. destruct (HR i d r Hd Hr h g Hh Hg). cbn [Nat.add] in *.
      splits; auto; congruence. }
    split; (apply nth_ext with (d := EmptyString) (d' := EmptyString); [rewrite map_length; lia|]).
    - intros i Hi. rewrite map_length, L1 in Hi. destruct (GX i Hi) as (d & r & s & B1 & B2 & B3 & B4 & B5).
      apply nth_error_nth with (d := EmptyString) in B3. rewrite B3. apply nth_error_nth.
      rewrite nth_error_map, B1. cbn. rewrite B4. reflexivity.
    - intros i Hi. rewrite map_length, L2 in Hi. destruct (GX i Hi) as (d & r & s & B1 & B2 & B3 & B4 & B5).
      apply nth_error_nth with (d := EmptyString) in B3. rewrite B3. apply nth_error_nth.
      rewrite nth_error_map, B2. cbn. rewrite B5. reflexivity. }
  destruct N1 as [N1 N2].
  assert (LL : length (linkAll p rs) = length (w_hs (u_w u))).
  { unfold linkAll. rewrite map_length, combine_length. cbn [p dp_hs]. lia. }
  assert (Hci : (Z.to_nat (w_compIx (u_w u)) < length (w_hs (u_w u)))%nat) by (apply nth_error_Some; congruence).
  assert (EI : forall st, lastComp 0 ds st = w_compIx (u_w u)).
  { intros st. destruct (nth_error_some ds (Z.to_nat (w_compIx (u_w u))) ltac:(lia)) as (di & Hd).
    assert (K : forall i h d', nth_error (w_hs (u_w u)) i = Some h -> nth_error ds i = Some d' -> dh_kind d' = match h_type h with TResistance => K_resistance | TCompressor => K_airToWater end).
    { intros i h' d' Hh' Hd'. assert (Hi : (i < length (w_hs (u_w u)))%nat) by (apply nth_error_Some; congruence).
      destruct (nth_error_some (u_rgi u) i ltac:(lia)) as (g & Hg). destruct (nth_error_some rs i ltac:(lia)) as (r & Hr).
      exact (s3_kind _ _ _ _ _ _ _ (HR i d' r Hd' Hr h' g Hh' Hg)). }
    rewrite (lastComp_at ds 0 _ (Z.to_nat (w_compIx (u_w u))) di Hd).
    - cbn [Nat.add]. lia.
    - rewrite (K _ _ _ Hc Hd), HTc. congruence.
    - intros j d' Hj HK. assert (Hj' : (j < length (w_hs (u_w u)))%nat) by (rewrite <- L1; apply nth_error_Some; congruence).
      destruct (nth_error_some _ j Hj') as (h' & Hh'). rewrite (K _ _ _ Hh' Hj) in HK. destruct (h_type h') eqn:ET; [|congruence].
      destruct (cu_comp u HU j h' Hh' ET) as (Q & _). lia. }
  assert (EC : Z.leb 0 (w_compIx (u_w u)) = true) by (apply Z.leb_le; lia).
  match goal with |- context[simFrom itp junk ?dd u0] => assert (EV : exists v, simFrom itp junk dd u0 = Ok v /\
    (exists cr, nth_error (linkAll p rs) (Z.to_nat (w_compIx (u_w u))) = Some cr /\
      w_hs (u_w v) = upd (linkAll p rs) (Z.to_nat (w_compIx (u_w u))) (ports ce (Z.of_nat (numNodes (w_tank (u_w u)))) cr)) /\
    w_tank (u_w v) = set_t_fixed (t_fixed (w_tank (u_w u))) (tankFrom (dp_tank p) (startTank dd (w_tank (u_w u0)))) /\
    w_compIx (u_w v) = w_compIx (u_w u) /\ u_names v = map snd rs /\ u_rgi v = map (fun r => snd (fst r)) rs /\ u_cop v = u_cop u /\
    w_setpoint (u_w v) = w_setpoint (u_w u) /\ w_doDepress (u_w v) = w_doDepress (u_w u)) end.
  { unfold simFrom. cbn [unitHead du_nodes du_fixed du_setpoint du_depress du_cop du_sys du_int du_central from option_map]. rewrite EC. cbn [toIf from].
    destruct (Z.ltb_spec (Z.of_nat (numNodes (w_tank (u_w u)))) 0); [lia|]. rewrite Nat2Z.id.
    change (ce_perf ce) with p.
    match goal with |- context[perfFrom _ p ?q] => destruct (perfFrom_eq (cenSource itp junk (u_cop u) (numNodes (w_tank (u_w u))) ce) p rs q ER) as (v & Ev & A1 & A2 & A3 & A4 & A5 & A6 & A7 & A8) end.
    rewrite Ev. cbn [obind]. unfold centralPorts. change (dp_hs p) with ds in A3. rewrite EI in A3. rewrite A3. destruct (Z.ltb_spec (w_compIx (u_w u)) 0); [lia|]. rewrite A1.
    destruct (nth_error_some (linkAll p rs) (Z.to_nat (w_compIx (u_w u))) ltac:(lia)) as (cr & Hcr). rewrite Hcr.
    change (ce_in ce) with (Some (IZR (h_extIn c) / nofN (numNodes (w_tank (u_w u))))). change (ce_out ce) with (Some (IZR (h_extOut c) / nofN (numNodes (w_tank (u_w u))))).
    cbv beta iota zeta. cbn [obind]. eexists. split; [reflexivity|]. cbn [u_w u_names u_rgi u_cop] in *. wsimpl.
    rewrite A2, A3, A4, A5, A6, A7, A8. wsimpl. splits; auto; [| |apply KC].
    2:{ unfold startTank, unitHead. cbn [du_nodes du_fixed from]. rewrite Nat2Z.id. reflexivity. }
    exists cr. split; [reflexivity|]. apply (f_equal (upd (linkAll p rs) (Z.to_nat (w_compIx (u_w u))))).
    unfold ports. subst ce. cbn [centralOf ce_in ce_out ce_flow from]. num_simpl. reflexivity. }
  destruct EV as (v & EV & (cr & Hcr & A1) & A2 & A3 & A4 & A5 & A6 & A7 & A8).
  exists c, ds, rs, v. split; [exact Hc|]. split; [exact HTc|]. split; [exact EV|]. split; [exact L1|]. split; [exact L2|]. split.
  { intros i h g d r Hh Hg Hd Hr. exact (HR i d r Hd Hr h g Hh Hg). }
  split; [rewrite A1, upd_length; exact LL|]. split.
  { intros i. fold p. fold ce. rewrite A1. unfold portsAt. destruct (Nat.eqb_spec i (Z.to_nat (w_compIx (u_w u)))) as [->|NE].
    - rewrite Hcr. cbn [option_map]. apply nth_error_upd_same. rewrite LL. exact Hci.
    - rewrite nth_error_upd_other by auto. destruct (nth_error (linkAll p rs) i); reflexivity. }
  splits; auto; try congruence. rewrite A5, map_length. exact L2.
Qed.

(** ** C69: the ports of a central system *)
Lemma simTo_ports {T} {N : Num T} (u : usim T) c d w' : (0 <= w_compIx (u_w u))%Z -> nth_error (w_hs (u_w u)) (Z.to_nat (w_compIx (u_w u))) = Some c -> h_config c = External ->
  simTo u (u_w u) = (Ok d, w') -> exists p fl sx, du_sys d = Some Sys_central /\ du_nodes d = Some (Z.of_nat (numNodes (w_tank (u_w u)))) /\
  du_central d = Some (mkdcentral p (Some (ndiv (nofZ (h_extIn c)) (nofN (numNodes (w_tank (u_w u)))))) (Some (ndiv (nofZ (h_extOut c)) (nofN (numNodes (w_tank (u_w u)))))) fl sx).
Proof.
  intros HC Hc HX E. unfold simTo in E. unfold bind at 1, get at 1 in E. cbv beta zeta in E.
  pose proof (proj2 (Z.leb_le 0 (w_compIx (u_w u))) HC) as EC. rewrite EC in E.
  unfold bind at 1 in E. unfold bind at 1, lift at 1 in E. unfold compCoil in E. destruct (Z.ltb_spec (w_compIx (u_w u)) 0); [lia|]. rewrite Hc in E. unfold ret at 1 in E.
  rewrite HX in E. cbn [isExt] in E.
  apply bind_inv in E. destruct E as (ce & w2 & E1 & E). injection E as <- <-.
  unfold centralTo in E1. apply bind_inv in E1. destruct E1 as (p & w3 & E2 & E1). unfold bind at 1, get at 1 in E1.
  pose proof (spM_perfTo u _ _ _ E2) as (x & ->). wsimpl_in E1. rewrite Hc in E1. injection E1 as <- <-.
  do 3 eexists. cbn [du_sys du_nodes du_central]. split; [reflexivity|]. split; reflexivity.
Qed.
Lemma simFrom_ports {T} {N : Num T} itp junk (d : dsim T) u0 v n p rIn rOut fl sx : du_sys d = Some Sys_central -> du_nodes d = Some n ->
  du_central d = Some (mkdcentral p (Some rIn) (Some rOut) fl sx) -> simFrom itp junk d u0 = Ok v ->
  exists c, nth_error (w_hs (u_w v)) (Z.to_nat (w_compIx (u_w v))) = Some c /\ h_config c = External /\
    h_extIn c = ntrunc (nmul rIn (nofZ n)) /\ h_extOut c = ntrunc (nmul rOut (nofZ n)).
Proof.
  intros ES EN EC E. unfold simFrom in E. rewrite EN, ES, EC in E. cbn [from ce_perf] in E. destruct (Z.ltb n 0); [discriminate|].
  match type of E with obind ?q _ = _ => destruct q as [v1|e|e|]; try discriminate end. cbn [obind] in E.
  unfold centralPorts in E. cbn [ce_in ce_out ce_flow] in E.
  destruct (if Z.ltb (w_compIx (u_w v1)) 0 then None else nth_error (w_hs (u_w v1)) (Z.to_nat (w_compIx (u_w v1)))) as [c|] eqn:Hc; [|discriminate].
  destruct (Z.ltb (w_compIx (u_w v1)) 0); [discriminate|].
  cbn [obind] in E. injection E as <-. cbn [u_w]. wsimpl. rewrite nth_error_upd_same by (apply nth_error_Some; congruence).
  eexists. split; [reflexivity|]. destruct fl; wsimpl; splits; reflexivity.
Qed.

Lemma C69_ports_fact : forall itp junk (u u0 : usim R) c d w' v,
  (0 <= w_compIx (u_w u))%Z -> nth_error (w_hs (u_w u)) (Z.to_nat (w_compIx (u_w u))) = Some c -> h_config c = External -> (0 < numNodes (w_tank (u_w u)))%nat ->
  simTo u (u_w u) = (Ok d, w') -> simFrom itp junk d u0 = Ok v ->
  exists c', nth_error (w_hs (u_w v)) (Z.to_nat (w_compIx (u_w v))) = Some c' /\ h_config c' = External /\ h_extIn c' = h_extIn c /\ h_extOut c' = h_extOut c.
Proof.
  intros itp junk u u0 c d w' v HC Hc HX HN ET EF.
  destruct (simTo_ports u c d w' HC Hc HX ET) as (p & fl & sx & E1 & E2 & E3).
  destruct (simFrom_ports itp junk d u0 v _ p _ _ fl sx E1 E2 E3 EF) as (c' & Hc' & HX' & HI & HO).
  exists c'. split; [exact Hc'|]. split; [exact HX'|]. rewrite HI, HO. unfold nofN. num_simpl. rewrite <- !INR_IZR_INZ.
  rewrite INR_IZR_INZ at 2 4. rewrite !ports_R by auto. auto.
Qed.

Definition exactCounts : list nat := [1; 2; 3; 4; 5; 6; 7; 8; 9; 10; 11; 12; 13; 14; 15; 16; 17; 18; 19; 20; 21; 24; 25; 27; 28; 29; 30; 31; 32; 33; 34; 35; 36; 37; 38; 40; 41; 42; 48;
  53; 54; 56; 57; 59; 60; 61; 62; 63; 64; 65; 66; 68; 72; 73; 80; 81; 96; 106; 109; 114; 120; 122; 124; 125; 126; 127; 128; 129; 130; 132; 133; 136; 144; 146; 160; 162; 171; 185; 189; 192]%nat.
Lemma ports_float : forallb (fun n => forallb (fun h => Z.eqb (ntrunc (nmul (ndiv (nofZ (h - 1)) (nofN (T:=float) n)) (nofZ (Z.of_nat n)))) (h - 1)) (map Z.of_nat (seq 0 (n + 2)))) exactCounts = true.
Proof. vm_compute. reflexivity. Qed.
Lemma ports_float_at n h : In n exactCounts -> (-1 <= h <= Z.of_nat n)%Z -> ntrunc (nmul (ndiv (nofZ h) (nofN (T:=float) n)) (nofZ (Z.of_nat n))) = h.
Proof.
  intros Hn Hh. pose proof ports_float as X. rewrite forallb_forall in X. specialize (X n Hn). cbv beta in X. rewrite forallb_forall in X.
  specialize (X (h + 1)%Z). cbv beta in X. replace (h + 1 - 1)%Z with h in X by lia. apply Z.eqb_eq, X. apply in_map_iff. exists (Z.to_nat (h + 1)). split; [lia|]. apply in_seq. lia.
Qed.
Lemma C69_doubles_fact : forall itp junk (u u0 : usim float) c d w' v,
  (0 <= w_compIx (u_w u))%Z -> nth_error (w_hs (u_w u)) (Z.to_nat (w_compIx (u_w u))) = Some c -> h_config c = External -> In (numNodes (w_tank (u_w u))) exactCounts ->
  (-1 <= h_extIn c <= Z.of_nat (numNodes (w_tank (u_w u))))%Z -> (-1 <= h_extOut c <= Z.of_nat (numNodes (w_tank (u_w u))))%Z ->
  simTo u (u_w u) = (Ok d, w') -> simFrom itp junk d u0 = Ok v ->
  exists c', nth_error (w_hs (u_w v)) (Z.to_nat (w_compIx (u_w v))) = Some c' /\ h_config c' = External /\ h_extIn c' = h_extIn c /\ h_extOut c' = h_extOut c.
Proof.
  intros itp junk u u0 c d w' v HC Hc HX HN H1 H2 ET EF.
  destruct (simTo_ports u c d w' HC Hc HX ET) as (p & fl & sx & E1 & E2 & E3).
  destruct (simFrom_ports itp junk d u0 v _ p _ _ fl sx E1 E2 E3 EF) as (c' & Hc' & HX' & HI & HO).
  exists c'. split; [exact Hc'|]. split; [exact HX'|]. rewrite HI, HO, !ports_float_at by auto. auto.
Qed.
Lemma C69_example_fact : exists d w' v, let u := exCentral (T:=float) (map fofZ [20; 30; 40; 50]%Z) in
  simTo u (u_w u) = (Ok d, w') /\ simFrom (fun _ _ _ _ => fofZ 1) exExternal d u = Ok v /\ In (numNodes (w_tank (u_w u))) exactCounts.
Proof.
  set (u := exCentral (T:=float) (map fofZ [20; 30; 40; 50]%Z)).
  assert (X : (match simTo u (u_w u) with (Ok d, _) => match simFrom (fun _ _ _ _ => fofZ 1) exExternal d u with Ok _ => true | _ => false end | _ => false end) = true) by (vm_compute; reflexivity).
  destruct (simTo u (u_w u)) as [[d|e|e|] w'] eqn:E1; try discriminate.
  destruct (simFrom (fun _ _ _ _ => fofZ 1) exExternal d u) as [v|e|e|] eqn:E2; try discriminate.
  exists d, w', v. split; [exact E1|]. split; [exact E2|]. right; right; right; left. reflexivity.
Qed.
Lemma C69_refuted_fact : exists (u : usim float) itp junk d w' v c c', simTo u (u_w u) = (Ok d, w') /\ simFrom itp junk d u = Ok v /\
  numNodes (w_tank (u_w u)) = 22%nat /\ nth_error (w_hs (u_w u)) 0 = Some c /\ h_config c = External /\ nth_error (w_hs (u_w v)) 0 = Some c' /\ h_extIn c = 15%Z /\ h_extIn c' = 14%Z.
Proof.
  set (u := mkusim (set_w_hs [set_h_extIn 15%Z exExternal] (u_w (exCentral (T:=float) (map fofZ [10; 11; 12; 13; 14; 15; 16; 17; 18; 19; 20; 21; 22; 23; 24; 25; 26; 27; 28; 29; 30; 31]%Z)))) ["heat pump"]%string
    [Some [[nofZ 0; nofZ 20; nofZ 40]; [nofZ 10; nofZ 30]; [nofZ 45; nofZ 60; nofZ 70]]] true).
  assert (X : (match simTo u (u_w u) with (Ok d, _) => match simFrom (fun _ _ _ _ => fofZ 1) exExternal d u with
      | Ok v => match nth_error (w_hs (u_w v)) 0 with Some c' => Z.eqb (h_extIn c') 14 | None => false end | _ => false end | _ => false end) = true) by (vm_compute; reflexivity).
  destruct (simTo u (u_w u)) as [[d|e|e|] w'] eqn:E1; try discriminate.
  destruct (simFrom (fun _ _ _ _ => fofZ 1) exExternal d u) as [v|e|e|] eqn:E2; try discriminate.
  destruct (nth_error (w_hs (u_w v)) 0) as [c'|] eqn:E3; [|discriminate]. apply Z.eqb_eq in X.
  exists u, (fun _ _ _ _ => fofZ 1), exExternal, d, w', v, (set_h_extIn 15%Z exExternal), c'. splits; auto.
Qed.

(** ** C88: a whole central system *)
Lemma central_source itp junk u u0 d w' v : centralUnit u -> simTo u (u_w u) = (Ok d, w') -> simFrom itp junk d u0 = Ok v ->
  forall i h g h', nth_error (w_hs (u_w u)) i = Some h -> nth_error (u_rgi u) i = Some g -> nth_error (w_hs (u_w v)) i = Some h' ->
  sameSource h h' /\ (h_type h = TCompressor -> sameExternal h h' /\ exists src lvg, StronglySorted Rlt src /\ StronglySorted Rlt lvg /\
    match g with Some [a0; a1; a2] => src = a1 /\ lvg = a2 | _ => True end /\
    h_eval h' = interpolated itp External (h_shxHot h) (u_cop u) [envAxis3 h g; src; lvg] (map p_in (evals3 h (envAxis3 h g) src lvg))
     (map (fun p => if u_cop u then p_out p / p_in p else p_out p) (evals3 h (envAxis3 h g) src lvg))).
Proof.
  intros HU ET EF i h g h' Hh Hg Hh'.
  destruct (central_rt itp junk u u0 d w' HU ET) as (c & ds & rs & v2 & Hc & HTc & EV & L1 & L2 & HR & LV & HN & N1 & N2 & L3 & A2 & A3 & A4 & A5 & A6 & A7).
  rewrite EF in EV. injection EV as <-.
  pose proof (cu_names u HU) as LN. pose proof (cu_grids u HU) as LG.
  assert (Hi : (i < length (w_hs (u_w u)))%nat) by (apply nth_error_Some; congruence).
  destruct (nth_error_some ds i ltac:(lia)) as (di & Hd). destruct (nth_error_some rs i ltac:(lia)) as (r & Hr).
  rewrite HN in Hh'. unfold linkAll in Hh'. cbn [dp_hs dp_primary] in Hh'.
  rewrite nth_error_map, (nth_error_combine _ _ _ _ _ Hd Hr) in Hh'. cbn [option_map] in Hh'. destruct r as [[h2 g2] nm]. injection Hh' as <-. rewrite N1.
  destruct (HR i h g di _ Hh Hg Hd Hr) as [S1 S2 S3 S4 S5 SA S6 S7 S8 S9 S10 S11 S12 S13 S14]. cbn [fst snd] in *.
  destruct (link_facts (u_names u) (unitPrimary u) di h2 nm) as (B1 & B2 & B3 & B4 & B5 & B6 & B7 & B8 & B9 & B10 & B11 & B12 & B13 & B14 & B15 & B16 & B17 & B18).
  pose proof (link_more (u_names u) (unitPrimary u) di h2 nm) as BM.
  set (h1 := link (u_names u) (unitPrimary u) di h2 nm) in *. clearbody h1. destruct S8 as (S81 & S82 & S83).
  pose proof (nth_error_In _ _ Hh) as Hin. pose proof (cu_distinct u HU) as HD.
  assert (SV : h_vip h1 = h_vip h) by (rewrite B1; apply (vip_flag _ _ i); auto; [apply (cu_nonempty u HU)|apply (cu_vip u HU)]).
  assert (SB : h_backup h1 = h_backup h) by (rewrite B2, S3, S81; apply lookup_nameAt; auto).
  assert (SF : h_followed h1 = h_followed h) by (rewrite B3, S4, S82; apply lookup_nameAt; auto).
  assert (SC : h_companion h1 = h_companion h) by (rewrite B4, S5, S83; apply lookup_nameAt; auto).
  assert (SH : forall a b, wd_normalizedWeight (h_dist h1) a b = wd_normalizedWeight (h_dist h) a b).
  { intros a b. rewrite B6, S9. destruct (valid_pos (h_dist h) (cu_dist u HU h Hin)) as (V1 & V2 & V3). apply normalized_rel; auto; lra. }
  unfold portsAt. destruct (h_type h) eqn:ETh.
  - destruct (cu_comp u HU i h Hh ETh) as (Ei & Q). specialize (Q g Hg).
    assert (h = c) by (rewrite Ei, Nat2Z.id, Hh in Hc; congruence). subst c. rewrite Ei, Nat2Z.id, Nat.eqb_refl.
    match goal with |- context[ports ?ce ?n h1] => destruct (ports_facts ce n h1) as (P0 & P1 & P2 & P3 & P4 & P5 & P6 & P7 & P8 & P9 & P10 & P11 & P12 & P13 & P14 & P15 & P16 & P17 & P18 & P19 & P20);
      set (h3 := ports ce n h1) in *; clearbody h3 end.
    destruct (S14 eq_refl) as (src & lvg & f & hr & RX & C1 & C2 & C3 & C4 & C5 & C6 & C7 & C8 & C9 & C10 & C11 & C12 & C13 & C14).
    destruct RX as [R1 R2 R3 R4 R5 R6 R7 R8 R9 R10 R11 R12 R13 R14 R15].
    assert (EM : ext_members h3 = ext_members hr) by congruence. unfold ext_members in EM. injection EM as M1 M2 M3 M4 M5 M6 M7 M8 M9 M10.
    destruct R14 as (R141 & R142 & R143). destruct R11 as (R111 & R112).
    split; [|intros _; split].
    + constructor; try congruence.
      intros _. rewrite P15, P16, P17, P1, P18, P19, B11, B12, B14, B15, B16, C3, C4, C6, C7, C8, (eo_coil _ _ _ Q). splits; reflexivity.
    + cbn [centralOf ce_in ce_out ce_flow from] in P2, P3, P4.
      constructor.
      * rewrite P2, P3. unfold nofN. num_simpl. rewrite <- !INR_IZR_INZ. rewrite INR_IZR_INZ at 2 4. rewrite !ports_R by apply (cu_nodes u HU). auto.
      * destruct (h_multipass h); cbn [toIf] in P4; [apply P4|exact P4].
      * intros HM. rewrite HM in P4. cbn [toIf] in P4. destruct P4 as (_ & ->). field.
      * splits; congruence.
      * split; congruence.
      * split; [congruence|]. intros X. destruct (R13 X) as (X1 & X2). split; congruence.
      * split; [congruence|]. intros X. rewrite <- (R10 X). congruence.
    + exists src, lvg. split; [exact C12|]. split; [exact C13|]. split; [exact C14|]. rewrite P20, B17, C2, R15, C10. reflexivity.
  - destruct (Nat.eqb_spec i (Z.to_nat (w_compIx (u_w u)))) as [->|NE]; [congruence|].
    split; [|congruence]. constructor; try congruence. intros _. rewrite B10. auto.
Qed.

Lemma C88_central_fact : forall itp junk (u u0 : usim R) d w', centralUnit u -> simTo u (u_w u) = (Ok d, w') -> exists v, simFrom itp junk d u0 = Ok v /\
  Forall2 (fun h h' => sameSource h h' /\ (h_type h = TCompressor -> sameExternal h h')) (w_hs (u_w u)) (w_hs (u_w v)) /\ u_names v = u_names u /\
  w_setpoint (u_w v) = w_setpoint (u_w u) /\ w_doDepress (u_w v) = w_doDepress (u_w u) /\
  numNodes (w_tank (u_w v)) = numNodes (w_tank (u_w u)) /\ t_volume (w_tank (u_w v)) = t_volume (w_tank (u_w u)) /\
  t_UA (w_tank (u_w v)) = t_UA (w_tank (u_w u)) /\ t_fixed (w_tank (u_w v)) = t_fixed (w_tank (u_w u)) /\
  w_compIx (u_w v) = w_compIx (u_w u) /\ u_cop v = u_cop u.
Proof.
  intros itp junk u u0 d w' HU ET.
  destruct (central_rt itp junk u u0 d w' HU ET) as (c & ds & rs & v & Hc & HTc & EV & L1 & L2 & HR & LV & HN & N1 & N2 & L3 & A2 & A3 & A4 & A5 & A6 & A7).
  exists v. split; [exact EV|]. split.
  { apply Forall2_nth; [congruence|]. intros i h h' Hh Hh'. assert (Hi : (i < length (w_hs (u_w u)))%nat) by (apply nth_error_Some; congruence).
    pose proof (cu_grids u HU) as LG. destruct (nth_error_some (u_rgi u) i ltac:(lia)) as (g & Hg).
    destruct (central_source itp junk u u0 d w' v HU ET EV i h g h' Hh Hg Hh') as (X1 & X2). split; [exact X1|]. intros HT. apply X2, HT. }
  split; [exact N2|]. split; [exact A4|]. split; [exact A5|].
  destruct (C68_tank_fact (w_tank (u_w u)) (startTank d (w_tank (u_w u0)))) as (X1 & X2 & _ & _ & _ & _ & _ & X & _).
  split.
  { rewrite A2. unfold numNodes. wsimpl. rewrite X. unfold startTank. wsimpl. rewrite resize_len, A3. cbn [from]. unfold numNodes. lia. }
  rewrite A2. wsimpl. splits; auto.
Qed.

(** an interpolator that returns the tabulated values at the points of a strictly increasing three-dimensional grid *)
Definition exact3 (itp : coil -> list (list R) -> list R -> list R -> R) : Prop :=
  forall cfg xs ys zs v i j k, StronglySorted Rlt xs -> StronglySorted Rlt ys -> StronglySorted Rlt zs -> length v = (length xs * (length ys * length zs))%nat ->
    (i < length xs)%nat -> (j < length ys)%nat -> (k < length zs)%nat ->
    itp cfg [xs; ys; zs] v [nth i xs 0; nth j ys 0; nth k zs 0] = nth (i * (length ys * length zs) + (j * length zs + k)) v 0.

Lemma C88_grid_points_fact : forall itp junk (u u0 : usim R) d w' v, centralUnit u -> exact3 itp -> simTo u (u_w u) = (Ok d, w') -> simFrom itp junk d u0 = Ok v ->
  forall i h g h', nth_error (w_hs (u_w u)) i = Some h -> nth_error (u_rgi u) i = Some g -> h_type h = TCompressor -> nth_error (w_hs (u_w v)) i = Some h' ->
  exists env src lvg, StronglySorted Rlt env /\ StronglySorted Rlt src /\ StronglySorted Rlt lvg /\ hd 0 env = h_minT h /\ last env 0 = h_maxT h /\
    match g with Some [a0; a1; a2] => src = a1 /\ lvg = a2 /\ (forall e, In e a0 -> h_minT h <= e <= h_maxT h -> In e env) | _ => True end /\
    forall sp e s, In e env -> In s src -> In (sp + h_shxHot h) lvg ->
      p_in (h_eval h' sp e s) = p_in (h_eval h sp e s) /\ p_out (h_eval h' sp e s) = p_out (h_eval h sp e s) /\
      p_cop (h_eval h' sp e s) = p_out (h_eval h sp e s) / p_in (h_eval h sp e s).
Proof.
  intros itp junk u u0 d w' v HU HX ET EF i h g h' Hh Hg HT Hh'.
  destruct (central_source itp junk u u0 d w' v HU ET EF i h g h' Hh Hg Hh') as (_ & X). destruct (X HT) as (_ & src & lvg & Ss & Sl & Sg & EV). clear X.
  destruct (cu_comp u HU i h Hh HT) as (_ & Q). specialize (Q g Hg).
  destruct (envAxis3_ok h g (eo_range _ _ _ Q)) as (SE & HE1 & HE2 & HE3).
  exists (envAxis3 h g), src, lvg. split; [exact SE|]. split; [exact Ss|]. split; [exact Sl|]. split; [exact HE1|]. split; [exact HE2|]. split.
  - destruct g as [[|a0 [|a1 [|a2 [|]]]]|]; auto. destruct Sg as (Sg1 & Sg2). split; [exact Sg1|]. split; [exact Sg2|]. intros e He Hr'. unfold envAxis3.
    destruct (C61_trim_fact (a0 ++ [h_minT h; h_maxT h]) (h_minT h) (h_maxT h)) as (_ & I & _). apply I. split; [apply in_or_app; auto|auto].
  - intros sp e s He Hs Ho. rewrite EV. clear EV. set (env := envAxis3 h g) in *. clearbody env.
    destruct (In_nth _ _ 0 He) as (a & Ha & Ea). destruct (In_nth _ _ 0 Hs) as (b & Hb & Eb). destruct (In_nth _ _ 0 Ho) as (k & Hk & Ek).
    unfold interpolated. cbn [length Nat.ltb Nat.leb].
    assert (IX : forall f : perf R -> R, itp External [env; src; lvg] (map f (evals3 h env src lvg)) [e; s; nadd sp (h_shxHot h)] = f (h_eval h sp e s)).
    { intros f. num_simpl. rewrite <- Ea, <- Eb, <- Ek. rewrite HX; auto.
      - unfold evals3. rewrite map_map.
        assert (LQ : (b * length lvg + k < length (list_prod src lvg))%nat) by (rewrite list_prod_len; nia).
        assert (LT : (a * length (list_prod src lvg) + (b * length lvg + k) < length (list_prod env (list_prod src lvg)))%nat) by (rewrite (list_prod_len env); nia).
        rewrite <- (list_prod_len src lvg). rewrite (map_nth_lt _ _ _ (0, (0, 0))) by exact LT. rewrite list_prod_nth by auto. rewrite list_prod_nth by auto.
        rewrite Ea, Eb, Ek. replace (sp + h_shxHot h - h_shxHot h) with sp by ring. reflexivity.
      - unfold evals3. rewrite !map_length, !list_prod_len. reflexivity. }
    rewrite !IX. pose proof (eo_in _ _ _ Q) as HN. destruct (u_cop u); cbn [p_in p_out p_cop].
    + splits; auto; cbv beta iota; num_simpl; field; now apply HN.
    + splits; auto.
Qed.

Definition lookup3 (cfg : coil) (axes : list (list R)) (v : list R) (target : list R) : R :=
  match axes, target with [xs; ys; zs], [x; y; z] => nth (index x xs * (length ys * length zs) + (index y ys * length zs + index z zs)) v 0 | _, _ => 0 end.
Lemma exCentral_ok Ts : Ts <> [] -> centralUnit (exCentral (T:=R) Ts).
Proof.
  intros HT.
  assert (VL : wd_isValid (exLower (T:=R)) = true).
  { apply C45_validity_fact. unfold exLower, dec. num_simpl. splits; [congruence|cbn; splits; lra|left; cbn; lra]. }
  assert (HS : w_hs (u_w (exCentral (T:=R) Ts)) = [exExternal]) by reflexivity.
  constructor; rewrite ?HS.
  - reflexivity.
  - reflexivity.
  - repeat constructor; cbn; intuition discriminate.
  - cbn; intuition discriminate.
  - intros [|i] [|j] hi hj A B C D; auto; cbn in A, B; try (destruct i; discriminate); destruct j; discriminate.
  - intros h [<-|[]]. exact VL.
  - intros h l [<-|[]]; cbn [exExternal set_h_extIn set_h_extOut set_h_mlAir set_h_multipass set_h_config exHS h_turnOn h_shutOff h_standby app In]; intuition (try discriminate); subst; cbn [exOn exOff l_isValid]; assumption || reflexivity.
  - intros [|i] h A B; cbn in A; [|destruct i; discriminate]. injection A as <-. split; [reflexivity|]. intros g [= <-].
    unfold exExternal, exHS. constructor; wsimpl; cbn [p_in p_out p_cop]; unfold dec; num_simpl; try lra; auto.
    + split; repeat constructor; lra.
    + intros _ _ _. lra.
  - split; [cbn; lia|]. exists exExternal. split; reflexivity.
  - cbn. destruct Ts; [congruence|cbn; lia].
Qed.
Lemma oneTo (u : usim R) (h : hsrc R) nm g c w1 : w_hs (u_w u) = [h] -> u_names u = [nm] -> u_rgi u = [g] -> w_compIx (u_w u) = 0%Z ->
  h_type h = TCompressor -> h_config h = External -> h_backup h = None -> h_followed h = None -> h_companion h = None ->
  atwTo h g (u_w u) = (Ok c, w1) -> w_hs w1 = [h] -> w_compIx w1 = 0%Z -> exists d w', simTo u (u_w u) = (Ok d, w').
Proof.
  intros H1 H2 H3 H4 H5 H6 H7 H8 H9 E H10 H11.
  assert (CC : compCoil (u_w u) = Ok External) by (unfold compCoil; rewrite H4, H1; cbn; now rewrite H6).
  assert (E1 : sourceTo h g (u_cop u) (u_w u) = (Ok (K_airToWater, SATW c), w1)).
  { unfold sourceTo. rewrite H5. unfold bind at 1, get at 1. unfold bind at 1, lift at 1. rewrite CC, H6. cbn [isExt]. unfold bind. rewrite E. reflexivity. }
  pose proof (hsTo_names [nm] 0 h g (u_cop u) _ _ _ _ nm eq_refl ltac:(rewrite H7, H8, H9; intros j [X|[X|X]]; discriminate) E1) as E2.
  assert (E3 : exists p, perfTo u (u_w u) = (Ok p, w1)).
  { unfold perfTo. rewrite H1, H2, H3. cbn [length seq combine mapM]. unfold bind at 1. unfold bind at 1. rewrite E2. eexists. reflexivity. }
  destruct E3 as (p & E3). unfold simTo. unfold bind at 1, get at 1. cbv beta zeta. rewrite H4. cbn [Z.leb Z.compare].
  unfold bind at 1. unfold bind at 1, lift at 1. rewrite CC. unfold ret at 1. cbn [isExt].
  unfold bind at 1. unfold centralTo. unfold bind at 1. rewrite E3. unfold bind at 1, get at 1.
  rewrite H10, H11. cbn [Z.to_nat nth_error]. unfold ret. eexists. eexists. reflexivity.
Qed.
Lemma exCentral_to Ts : exists d w', simTo (exCentral (T:=R) Ts) (u_w (exCentral Ts)) = (Ok d, w').
Proof.
  destruct (atwTo_grid (exExternal (T:=R)) [nofZ 0; nofZ 20; nofZ 40] [nofZ 10; nofZ 30] [nofZ 45; nofZ 60; nofZ 70] [] (u_w (exCentral (T:=R) Ts))) as (c & E); try congruence.
  { apply trim_ok; [|apply in_or_app; right; now left|apply in_or_app; right; right; now left]. cbn. lra. }
  eapply oneTo; [reflexivity|reflexivity|reflexivity|reflexivity|reflexivity|reflexivity|reflexivity|reflexivity|reflexivity|exact E|reflexivity|reflexivity].
Qed.
Lemma C88_example_fact : exact3 lookup3 /\ centralUnit (exCentral (T:=R) [20; 30; 40; 50]) /\
  exists d w', simTo (exCentral (T:=R) [20; 30; 40; 50]) (u_w (exCentral [20; 30; 40; 50])) = (Ok d, w').
Proof.
  split; [|split; [apply exCentral_ok; congruence|apply exCentral_to]].
  intros cfg xs ys zs v i j k HX HY HZ HL Hi Hj Hk. unfold lookup3. now rewrite !index_nth.
Qed.
