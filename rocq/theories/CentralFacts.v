(** Proofs of the theorems stated in PropsCentral.v: Properties of central systems written to the data model and read back, and of names in the data model *)

From Coq Require Import ZArith String List Bool Reals Lra Lia Floats Sorted.
From Verif Require Import Num FNum Base Units Utils Types TankM Logic HeatSrc Step Setters Perf DataModel Spec SpecDist.
From Verif Require Import RList FrameProofs SimFrame ControlProofs DistFacts PerfFacts StepEnergy SeqProofs DataModelFacts RoundTripFacts Example.
Import ListNotations.
Local Open Scope R_scope.
(** ** C86: what writing does to the simulator *)
Section Frame.
  Context {T : Type} {N : Num T}.
  Notation W := (hpwh T).
  Definition spOnly (w w' : W) : Prop := exists x, w' = set_w_setpoint x w.
  Lemma sp_refl w : spOnly w w.
  Proof. exists (w_setpoint w). destruct w. reflexivity. Qed.
  Lemma sp_set x y (w : W) : set_w_setpoint x (set_w_setpoint y w) = set_w_setpoint x w.
  Proof. destruct w. reflexivity. Qed.
  Lemma sp_trans a b c : spOnly a b -> spOnly b c -> spOnly a c.
  Proof. intros (x & ->) (y & ->). exists y. apply sp_set. Qed.
  Lemma sp_back w w' : spOnly w w' -> set_w_setpoint (w_setpoint w) w' = w.
  Proof. intros (x & ->). rewrite sp_set. destruct w; reflexivity. Qed.
  Definition spM {A} (m : M W A) : Prop := forall w o w', m w = (o, w') -> spOnly w w'.
  Lemma spM_bind {A B} (m : M W A) (k : A -> M W B) : spM m -> (forall a, spM (k a)) -> spM (bind m k).
  Proof.
    intros HM HK w o w' E. unfold bind in E. destruct (m w) as [[a|e|e|] w1] eqn:E1; try (injection E as <- <-; eapply HM; eauto).
    eapply sp_trans; [eapply HM; eauto|eapply HK; eauto].
  Qed.
  Lemma spM_ret {A} (a : A) : spM (ret a).
  Proof. intros w o w' [= <- <-]. apply sp_refl. Qed.
  Lemma spM_lift {A} (a : outc A) : spM (lift a).
  Proof. intros w o w' E. unfold lift in E. destruct a; injection E as <- <-; apply sp_refl. Qed.
  Lemma spM_get : spM (get (S:=W)).
  Proof. intros w o w' [= <- <-]. apply sp_refl. Qed.
  Lemma spM_undef {A} s : spM (undef (A:=A) s).
  Proof. intros w o w' [= <- <-]. apply sp_refl. Qed.
  Lemma spM_throw {A} s : spM (throw (A:=A) s).
  Proof. intros w o w' [= <- <-]. apply sp_refl. Qed.
  Lemma spM_mod x : spM (modify (set_w_setpoint x)).
  Proof. intros w o w' [= <- <-]. now exists x. Qed.
  Lemma spM_mapM {A B} (f : A -> M W B) : (forall a, spM (f a)) -> forall l, spM (mapM f l).
  Proof.
    intros HF. induction l as [|a l IH]; cbn [mapM]; [apply spM_ret|]. apply spM_bind; auto. intros b. apply spM_bind; auto. intros. apply spM_ret.
  Qed.
  Lemma spM_setSetpoint x u : spM (setSetpoint x u).
  Proof.
    unfold setSetpoint. apply spM_bind; [apply spM_lift|]. intros c. unfold setSetpointC. apply spM_bind; [apply spM_get|]. intros w.
    apply spM_bind; [apply spM_lift|]. intros [[] m]; [apply spM_mod|apply spM_throw].
  Qed.
  Lemma spM_atwTo h g : spM (atwTo h g).
  Proof.
    unfold atwTo. destruct g as [[|a0 [|a1 [|a2 r]]]|]; try apply spM_undef;
    repeat first [apply spM_setSetpoint | apply spM_ret | apply spM_get | apply spM_mod | apply spM_mapM; intros (e & s & o) | apply spM_bind; [|intros]].
  Qed.
  Lemma spM_sourceTo h g cop : spM (sourceTo h g cop).
  Proof.
    unfold sourceTo. destruct (h_type h); [|apply spM_ret]. apply spM_bind; [apply spM_get|intros w]. apply spM_bind; [apply spM_lift|intros c].
    destruct (isExt c), (isExt (h_config h)); try apply spM_undef; (apply spM_bind; [|intros; apply spM_ret]); [apply spM_atwTo|apply spM_lift].
  Qed.
  Lemma spM_hsTo names i h g cop : spM (hsTo names i h g cop).
  Proof.
    unfold hsTo. do 4 (apply spM_bind; [apply spM_lift|intros]). apply spM_bind; [apply spM_sourceTo|]. intros []. apply spM_ret.
  Qed.
  Lemma spM_perfTo u : spM (perfTo u).
  Proof. unfold perfTo. apply spM_bind; [|intros; apply spM_ret]. apply spM_mapM. intros (i & h & g). apply spM_hsTo. Qed.
  Lemma spM_centralTo u : spM (centralTo u).
  Proof.
    unfold centralTo. apply spM_bind; [apply spM_perfTo|]. intros p. apply spM_bind; [apply spM_get|]. intros w.
    destruct (nth_error _ _); [apply spM_ret|apply spM_undef].
  Qed.
  Lemma spM_simTo u : spM (simTo u).
  Proof.
    unfold simTo. apply spM_bind; [apply spM_get|]. intros w. apply spM_bind.
    - destruct (Z.leb 0 (w_compIx w)); [|apply spM_ret]. apply spM_bind; [apply spM_lift|intros; apply spM_ret].
    - intros []; (apply spM_bind; [|intros; apply spM_ret]); [apply spM_centralTo|apply spM_perfTo].
  Qed.
End Frame.

Lemma C86_only_setpoint_fact : forall (T : Type) (N : Num T) (u : usim T) o w', simTo u (u_w u) = (o, w') -> exists sp, w' = set_w_setpoint sp (u_w u).
Proof. intros T N u o w' E. exact (spM_simTo u _ _ _ E). Qed.
Section Pure.
  Context {T : Type} {N : Num T}.
  Notation W := (hpwh T).
  Definition pureM {A} (m : M W A) : Prop := forall w, snd (m w) = w.
  Lemma pure_bind {A B} (m : M W A) (k : A -> M W B) : pureM m -> (forall a, pureM (k a)) -> pureM (bind m k).
  Proof.
    intros HM HK w. unfold bind. specialize (HM w). destruct (m w) as [[a|e|e|] w1]; cbn in HM |- *; subst; auto. apply HK.
  Qed.
  Lemma pure_ret {A} (a : A) : pureM (ret a). Proof. intros w. reflexivity. Qed.
  Lemma pure_lift {A} (a : outc A) : pureM (lift a). Proof. intros w. destruct a; reflexivity. Qed.
  Lemma pure_get : pureM (get (S:=W)). Proof. intros w. reflexivity. Qed.
  Lemma pure_undef {A} s : pureM (undef (A:=A) s). Proof. intros w. reflexivity. Qed.
  Lemma pure_mapM {A B} (f : A -> M W B) : forall l, (forall a, In a l -> pureM (f a)) -> pureM (mapM f l).
  Proof.
    induction l as [|a l IH]; intros HF; cbn [mapM]; [apply pure_ret|]. apply pure_bind; [apply HF; now left|]. intros b.
    apply pure_bind; [apply IH; intros; apply HF; now right|]. intros; apply pure_ret.
  Qed.
  Lemma pure_hsTo names i h g cop : (h_type h = TCompressor -> h_config h <> External) -> pureM (hsTo names i h g cop).
  Proof.
    intros HC. unfold hsTo. do 4 (apply pure_bind; [apply pure_lift|intros]). apply pure_bind; [|intros []; apply pure_ret].
    unfold sourceTo. destruct (h_type h); [|apply pure_ret]. specialize (HC eq_refl).
    apply pure_bind; [apply pure_get|intros w]. apply pure_bind; [apply pure_lift|intros c].
    destruct (h_config h); try congruence; destruct (isExt c); cbn [isExt]; try apply pure_undef; apply pure_bind; try apply pure_lift; intros; apply pure_ret.
  Qed.
  Lemma pure_perfTo u : (forall h, In h (w_hs (u_w u)) -> h_type h = TCompressor -> h_config h <> External) -> pureM (perfTo u).
  Proof.
    intros HC. unfold perfTo. apply pure_bind; [|intros; apply pure_ret]. apply pure_mapM. intros (i & h & g) Hin. apply pure_hsTo.
    apply HC. apply in_combine_r, in_combine_l in Hin. exact Hin.
  Qed.
  Lemma pure_simTo u : (forall h, In h (w_hs (u_w u)) -> h_type h = TCompressor -> h_config h <> External) -> pureM (simTo u).
  Proof.
    intros HC. unfold simTo. apply pure_bind; [apply pure_get|]. intros w. apply pure_bind.
    - destruct (Z.leb 0 (w_compIx w)); [|apply pure_ret]. apply pure_bind; [apply pure_lift|intros; apply pure_ret].
    - pose proof (pure_perfTo u HC). intros []; (apply pure_bind; [|intros; apply pure_ret]); auto.
      unfold centralTo. apply pure_bind; auto. intros p. apply pure_bind; [apply pure_get|]. intros w'.
      destruct (nth_error _ _); [apply pure_ret|apply pure_undef].
  Qed.

  (** an external compressor described by a grid *)
  Lemma mapM_cons {A B} (f : A -> M W B) a l w b w1 bs w2 : f a w = (Ok b, w1) -> mapM f l w1 = (Ok bs, w2) -> mapM f (a :: l) w = (Ok (b :: bs), w2).
  Proof. intros E1 E2. cbn [mapM]. unfold bind at 1. rewrite E1. unfold bind. rewrite E2. reflexivity. Qed.
  Definition gridEval (h : hsrc T) (q : T * (T * T)) : M W (perf T) :=
    let '(e, (s, o)) := q in bind (modify (set_w_setpoint (nsub o (h_shxHot h)))) (fun _ => bind get (fun w => ret (h_eval h (w_setpoint w) e s))).
  Lemma gridEval_eq h e s o w : gridEval h (e, (s, o)) w = (Ok (h_eval h (nsub o (h_shxHot h)) e s), set_w_setpoint (nsub o (h_shxHot h)) w).
  Proof. unfold gridEval, bind, modify, get, ret. destruct w; reflexivity. Qed.
  Lemma last_indep {A} : forall (l : list A) d d', l <> [] -> last l d = last l d'.
  Proof. induction l as [|x [|y l] IH]; intros d d' HL; [congruence|reflexivity|]. cbn [last]. apply IH. congruence. Qed.
  Lemma grid_mapM h : forall l w, mapM (gridEval h) l w =
    (Ok (map (fun '(e, (s, o)) => h_eval h (nsub o (h_shxHot h)) e s) l),
     match l with [] => w | x :: r => set_w_setpoint (nsub (snd (snd (last r x))) (h_shxHot h)) w end).
  Proof.
    induction l as [|(e & s & o) l IH]; intros w; [reflexivity|].
    rewrite (mapM_cons _ _ _ _ _ _ _ _ (gridEval_eq h e s o w) (IH _)). cbn [map]. f_equal.
    destruct l as [|x r]; [reflexivity|]. rewrite sp_set.
    replace (last (x :: r) (e, (s, o))) with (last (x :: r) x) by (apply last_indep; congruence).
    replace (last (x :: r) x) with (last r x) by (destruct r; reflexivity). reflexivity.
  Qed.
  Lemma last_app {A} : forall (l m : list A) d, m <> [] -> last (l ++ m) d = last m d.
  Proof.
    induction l as [|x l IH]; intros m d HM; [reflexivity|]. cbn [app]. destruct (l ++ m) eqn:E.
    - apply app_eq_nil in E. tauto.
    - rewrite <- E. cbn [last]. rewrite E, <- E. apply IH; auto.
  Qed.
  Lemma last_map' {A B} (f : A -> B) : forall l d, last (map f l) (f d) = f (last l d).
  Proof. induction l as [|x [|y l] IH]; intros; [reflexivity..|]. exact (IH d). Qed.
  Lemma last_prod {A B} : forall (a : list A) (b : list B) x y, a <> [] -> b <> [] -> last (list_prod a b) (x, y) = (last a x, last b y).
  Proof.
    induction a as [|z a IH]; intros b x y HA HB; [congruence|]. cbn [list_prod].
    assert (HM : last (map (fun q => (z, q)) b) (x, y) = (z, last b y)).
    { rewrite (last_indep _ (x, y) (z, y)) by (destruct b; cbn; congruence). apply (last_map' (fun q => (z, q))). }
    destruct a as [|z' a].
    - cbn [list_prod last]. rewrite app_nil_r. exact HM.
    - rewrite last_app.
      + rewrite IH by (auto; congruence). reflexivity.
      + cbn [list_prod]. destruct b; cbn; congruence.
  Qed.
  Lemma prod_nonempty {A B} (a : list A) (b : list B) : a <> [] -> b <> [] -> list_prod a b <> [].
  Proof. destruct a, b; cbn; congruence. Qed.
  Lemma atwTo_grid h a0 a1 a2 r w : let env := trimGridVector (a0 ++ [h_minT h; h_maxT h])%list (h_minT h) (h_maxT h) in
    env <> [] -> a1 <> [] -> a2 <> [] -> exists c, atwTo h (Some (a0 :: a1 :: a2 :: r)) w = (Ok c, set_w_setpoint (nsub (last a2 (nofZ 0)) (h_shxHot h)) w).
  Proof.
    intros env H0 H1 H2. unfold atwTo. fold env.
    match goal with |- context[mapM ?f ?l] => change (mapM f l) with (mapM (gridEval h) l) end.
    unfold bind at 1. rewrite grid_mapM. unfold ret. eexists. f_equal.
    pose proof (prod_nonempty _ _ H0 (prod_nonempty _ _ H1 H2)) as HN. pose proof (last_prod env (list_prod a1 a2) (nofZ 0) (nofZ 0, nofZ 0) H0 (prod_nonempty _ _ H1 H2)) as HL.
    rewrite (last_prod a1 a2) in HL by auto. destruct (list_prod env (list_prod a1 a2)) as [|x q]; [congruence|].
    rewrite (last_indep (x :: q) _ x) in HL by congruence. replace (last (x :: q) x) with (last q x) in HL by (destruct q; reflexivity).
    rewrite HL. reflexivity.
  Qed.
  Lemma ret_state {A} (a : A) (w : W) o w' : ret a w = (o, w') -> w' = w.
  Proof. intros [= _ <-]. reflexivity. Qed.
  Lemma atwTo_fun h w c w' : atwTo h None w = (Ok c, w') -> w' = w.
  Proof.
    intros E. unfold atwTo in E. unfold bind at 1, get at 1 in E. cbv beta zeta in E.
    apply bind_inv in E. destruct E as (ps & w1 & E1 & E). apply bind_inv in E. destruct E as ([] & w2 & E2 & E).
    apply ret_state in E. subst w'.
    assert (S1 : spOnly w w1).
    { eapply spM_mapM; [|exact E1]. intros (e & s & o). repeat first [apply spM_setSetpoint | apply spM_ret | apply spM_get | apply spM_mod | apply spM_bind; [|intros]]. }
    unfold setSetpoint in E2. apply bind_inv in E2. destruct E2 as (x & w3 & E2 & E3). cbn [tempToC] in E2. injection E2 as <- <-.
    unfold setSetpointC in E3. unfold bind at 1, get at 1 in E3. apply bind_inv in E3. destruct E3 as ([[] m] & w4 & E3 & E4).
    - unfold lift in E3. destruct (setpointPossible (w_setpoint w) w1); try discriminate. injection E3 as _ <-.
      injection E4 as <-. now apply sp_back.
    - discriminate.
  Qed.
End Pure.

Lemma C86_integrated_fact : forall (T : Type) (N : Num T) (u : usim T) o w',
  (forall h, In h (w_hs (u_w u)) -> h_type h = TCompressor -> h_config h <> External) -> simTo u (u_w u) = (o, w') -> w' = u_w u.
Proof. intros T N u o w' HC E. pose proof (pure_simTo u HC (u_w u)) as X. rewrite E in X. exact X. Qed.

Section Okay.
  Context {T : Type} {N : Num T}.
  Notation W := (hpwh T).
  (** computations that, when they succeed, leave the state or set the setpoint to X *)
  Definition keeps {A} (m : M W A) : Prop := forall w a w', m w = (Ok a, w') -> w' = w.
  Definition sets {A} (X : T) (m : M W A) : Prop := forall w a w', m w = (Ok a, w') -> w' = set_w_setpoint X w.
  Lemma pure_keeps {A} (m : M W A) : pureM m -> keeps m.
  Proof. intros HP w a w' E. specialize (HP w). rewrite E in HP. exact HP. Qed.
  Lemma keeps_bind {A B} (m : M W A) (k : A -> M W B) : keeps m -> (forall a, keeps (k a)) -> keeps (bind m k).
  Proof. intros HM HK w b w' E. apply bind_inv in E. destruct E as (a & w1 & E1 & E2). rewrite <- (HM _ _ _ E1). eapply HK; eauto. Qed.
  Lemma sets_bind {A B} X (m : M W A) (k : A -> M W B) : keeps m -> (forall a, sets X (k a)) -> sets X (bind m k).
  Proof. intros HM HK w b w' E. apply bind_inv in E. destruct E as (a & w1 & E1 & E2). rewrite <- (HM _ _ _ E1). eapply HK; eauto. Qed.
  Lemma sets_bindl {A B} X (m : M W A) (k : A -> M W B) : sets X m -> (forall a, keeps (k a)) -> sets X (bind m k).
  Proof. intros HM HK w b w' E. apply bind_inv in E. destruct E as (a & w1 & E1 & E2). rewrite <- (HM _ _ _ E1). eapply HK; eauto. Qed.
  Lemma keeps_mapM {A B} (f : A -> M W B) : forall l, (forall a, In a l -> keeps (f a)) -> keeps (mapM f l).
  Proof.
    induction l as [|a l IH]; intros HF; cbn [mapM]; [apply pure_keeps, pure_ret|]. apply keeps_bind; [apply HF; now left|]. intros b.
    apply keeps_bind; [apply IH; intros; apply HF; now right|]. intros; apply pure_keeps, pure_ret.
  Qed.
  Lemma sets_mapM {A B} X (f : A -> M W B) : forall l, (forall a, In a l -> keeps (f a) \/ sets X (f a)) -> (exists a, In a l /\ sets X (f a)) -> sets X (mapM f l).
  Proof.
    assert (G : forall l, (forall a, In a l -> keeps (f a) \/ sets X (f a)) -> forall w bs w', mapM f l w = (Ok bs, w') -> w' = w \/ w' = set_w_setpoint X w).
    { induction l as [|a l IH]; intros HF w bs w' E; cbn [mapM] in E.
      - injection E as _ <-. auto.
      - apply bind_inv in E. destruct E as (b & w1 & E1 & E). apply bind_inv in E. destruct E as (cs & w2 & E2 & E). injection E as _ <-.
        apply IH in E2; [|intros; apply HF; now right].
        destruct (HF a (or_introl eq_refl)) as [K|K]; apply K in E1; subst; destruct E2 as [->| ->]; rewrite ?sp_set; auto. }
    induction l as [|a l IH]; intros HF (z & Hz & HS); [destruct Hz|]. intros w bs w' E. cbn [mapM] in E.
    apply bind_inv in E. destruct E as (b & w1 & E1 & E). apply bind_inv in E. destruct E as (cs & w2 & E2 & E). injection E as _ <-.
    destruct Hz as [->|Hz].
    - apply HS in E1. subst w1. apply G in E2; [|intros; apply HF; now right]. destruct E2 as [->| ->]; rewrite ?sp_set; auto.
    - assert (E3 : w2 = set_w_setpoint X w1) by (eapply IH; [intros; apply HF; now right|exists z; auto|exact E2]).
      destruct (HF a (or_introl eq_refl)) as [K|K]; apply K in E1; subst; rewrite ?sp_set; auto.
  Qed.
  Lemma hsTo_wrap (P : forall A, M W A -> Prop) names i h g cop :
    (forall A B (m : M W A) (k : A -> M W B), keeps m -> (forall a, P B (k a)) -> P B (bind m k)) ->
    (forall A B (m : M W A) (k : A -> M W B), P A m -> (forall a, keeps (k a)) -> P B (bind m k)) ->
    P _ (sourceTo h g cop) -> P _ (hsTo names i h g cop).
  Proof.
    intros H1 H2 HS. unfold hsTo. do 4 (apply H1; [apply pure_keeps, pure_lift|intros]). apply H2; [exact HS|]. intros []. apply pure_keeps, pure_ret.
  Qed.
  Lemma sourceTo_keeps h g cop : (h_type h = TCompressor -> h_config h = External -> g = None) -> keeps (sourceTo h g cop).
  Proof.
    intros HG. unfold sourceTo. destruct (h_type h); [|apply pure_keeps, pure_ret].
    apply keeps_bind; [apply pure_keeps, pure_get|intros w]. apply keeps_bind; [apply pure_keeps, pure_lift|intros c].
    destruct (h_config h) eqn:EC; destruct (isExt c); cbn [isExt]; try (apply pure_keeps, pure_undef);
      (apply keeps_bind; [|intros; apply pure_keeps, pure_ret]); try (apply pure_keeps, pure_lift).
    rewrite (HG eq_refl eq_refl). intros w1 a w2 E. now apply atwTo_fun in E.
  Qed.
  Lemma sourceTo_sets h a0 a1 a2 r cop : h_type h = TCompressor -> h_config h = External ->
    trimGridVector (a0 ++ [h_minT h; h_maxT h])%list (h_minT h) (h_maxT h) <> [] -> a1 <> [] -> a2 <> [] ->
    sets (nsub (last a2 (nofZ 0)) (h_shxHot h)) (sourceTo h (Some (a0 :: a1 :: a2 :: r)) cop).
  Proof.
    intros HT HC H0 H1 H2. unfold sourceTo. rewrite HT, HC. cbn [isExt].
    apply sets_bind; [apply pure_keeps, pure_get|intros w]. apply sets_bind; [apply pure_keeps, pure_lift|intros c].
    destruct (isExt c); [|intros w1 a w2 E; discriminate].
    apply sets_bindl; [|intros; apply pure_keeps, pure_ret]. intros w1 a w2 E.
    destruct (atwTo_grid h a0 a1 a2 r w1 H0 H1 H2) as (c' & E'). rewrite E in E'. now injection E' as _ ->.
  Qed.
  Lemma simTo_wrap (P : forall A, M W A -> Prop) u :
    (forall A B (m : M W A) (k : A -> M W B), keeps m -> (forall a, P B (k a)) -> P B (bind m k)) ->
    (forall A B (m : M W A) (k : A -> M W B), P A m -> (forall a, keeps (k a)) -> P B (bind m k)) ->
    P _ (perfTo u) -> P _ (simTo u).
  Proof.
    intros H1 H2 HP. unfold simTo. apply H1; [apply pure_keeps, pure_get|]. intros w. apply H1.
    { destruct (Z.leb 0 (w_compIx w)); [|apply pure_keeps, pure_ret]. apply keeps_bind; [apply pure_keeps, pure_lift|intros; apply pure_keeps, pure_ret]. }
    intros []; (apply H2; [|intros; apply pure_keeps, pure_ret]); auto.
    unfold centralTo. apply H2; auto. intros p. apply keeps_bind; [apply pure_keeps, pure_get|]. intros w'.
    destruct (nth_error _ _); apply pure_keeps; [apply pure_ret|apply pure_undef].
  Qed.
  Lemma combine_nth_in {A B} : forall (a : list A) (b : list B) k i x y, In (i, (x, y)) (combine (seq k (length a)) (combine a b)) ->
    exists j, i = (k + j)%nat /\ nth_error a j = Some x /\ nth_error b j = Some y.
  Proof.
    induction a as [|z a IH]; intros [|t b] k i x y Hin; cbn [length seq combine In] in Hin; try (now destruct Hin).
    destruct Hin as [E|Hin].
    - injection E as <- <- <-. exists 0%nat. split; [lia|]. split; reflexivity.
    - destruct (IH b (S k) i x y Hin) as (j & E & A1 & A2). exists (S j). split; [lia|]. split; assumption.
  Qed.
  Lemma combine_in_nth {A B} : forall (a : list A) (b : list B) k j x y, nth_error a j = Some x -> nth_error b j = Some y ->
    In ((k + j)%nat, (x, y)) (combine (seq k (length a)) (combine a b)).
  Proof.
    induction a as [|z a IH]; intros [|t b] k j x y HA HB; destruct j as [|j]; cbn in HA, HB; try discriminate; cbn [length seq combine In].
    - left. injection HA as ->. injection HB as ->. do 2 f_equal. lia.
    - right. replace (k + S j)%nat with (S k + j)%nat by lia. auto.
  Qed.
  Lemma simTo_setpoint u d w' : simTo u (u_w u) = (Ok d, w') -> du_setpoint d = Some (C_TO_K (w_setpoint (u_w u))).
  Proof.
    intros E. unfold simTo in E. unfold bind at 1, get at 1 in E. cbv beta zeta in E. apply bind_inv in E. destruct E as (b & w1 & _ & E).
    destruct b; apply bind_inv in E; destruct E as (p & w2 & _ & E); injection E as <- _; reflexivity.
  Qed.
End Okay.

Lemma C86_functions_fact : forall (T : Type) (N : Num T) (u : usim T) d w',
  (forall i h g, nth_error (w_hs (u_w u)) i = Some h -> nth_error (u_rgi u) i = Some g -> h_type h = TCompressor -> h_config h = External -> g = None) ->
  simTo u (u_w u) = (Ok d, w') -> w' = u_w u.
Proof.
  intros T N u d w' HG E. revert E. apply (simTo_wrap (@keeps T)); [apply @keeps_bind|apply @keeps_bind|]. unfold perfTo. apply keeps_bind; [|intros; apply pure_keeps, pure_ret].
  apply keeps_mapM. intros (i & h & g) Hin. apply combine_nth_in in Hin. destruct Hin as (j & -> & Hh & Hg).
  apply (hsTo_wrap (@keeps T)); [apply @keeps_bind|apply @keeps_bind|]. apply sourceTo_keeps. eauto.
Qed.

Lemma C86_grid_fact : forall (T : Type) (N : Num T) (u : usim T) i c a0 a1 a2 r d w',
  nth_error (w_hs (u_w u)) i = Some c -> h_type c = TCompressor -> h_config c = External ->
  nth_error (u_rgi u) i = Some (Some (a0 :: a1 :: a2 :: r)) -> a1 <> [] -> a2 <> [] ->
  trimGridVector (a0 ++ [h_minT c; h_maxT c])%list (h_minT c) (h_maxT c) <> [] ->
  (forall j h, nth_error (w_hs (u_w u)) j = Some h -> h_type h = TCompressor -> j = i) ->
  simTo u (u_w u) = (Ok d, w') ->
  w' = set_w_setpoint (nsub (last a2 (nofZ 0)) (h_shxHot c)) (u_w u) /\ du_setpoint d = Some (C_TO_K (w_setpoint (u_w u))).
Proof.
  intros T N u i c a0 a1 a2 r d w' Hc HT HC Hg H1 H2 H0 HU E. split; [|now apply simTo_setpoint in E].
  revert E. set (X := nsub (last a2 (nofZ 0)) (h_shxHot c)).
  apply (simTo_wrap (fun A => @sets T A X)); [intros; now apply sets_bind|intros; now apply sets_bindl|].
  unfold perfTo. apply sets_bindl; [|intros; apply pure_keeps, pure_ret].
  assert (HS : sets X (hsTo (u_names u) i c (Some (a0 :: a1 :: a2 :: r)) (u_cop u))).
  { apply (hsTo_wrap (fun A => @sets T A X)); [intros; now apply sets_bind|intros; now apply sets_bindl|]. now apply sourceTo_sets. }
  apply sets_mapM.
  - intros (k & h & g) Hin. apply combine_nth_in in Hin. destruct Hin as (j & -> & Hh & Hg').
    destruct (h_type h) eqn:ET.
    + right. assert (j = i) by eauto. subst j. rewrite Hc in Hh. injection Hh as <-. rewrite Hg in Hg'. injection Hg' as <-. exact HS.
    + left. apply (hsTo_wrap (@keeps T)); [apply @keeps_bind|apply @keeps_bind|]. apply sourceTo_keeps. congruence.
  - exists (i, (c, Some (a0 :: a1 :: a2 :: r))). split; [|exact HS]. exact (combine_in_nth (w_hs (u_w u)) (u_rgi u) 0 i _ _ Hc Hg).
Qed.

(** a single-pass external heat pump with a grid of three air, two inlet and three outlet temperatures *)
Definition exExternal {T} {N : Num T} : hsrc T :=
  set_h_extIn 3%Z (set_h_extOut 1%Z (set_h_mlAir (dec (-27315) 100) (set_h_multipass false (set_h_config External
    (exHS TCompressor false None exLower [exOn exLower (nofZ 5)] [exOff (nofZ 60)] 0))))).
Definition exCentral {T} {N : Num T} (Ts : list T) : usim T :=
  mkusim (set_w_compIx 0%Z (set_w_lowIx (-1)%Z (set_w_hs [exExternal] (exUnit Ts)))) ["heat pump"]%string
    [Some [[nofZ 0; nofZ 20; nofZ 40]; [nofZ 10; nofZ 30]; [nofZ 45; nofZ 60; nofZ 70]]] true.
Lemma C86_example_fact : exists d w', simTo (exCentral (T:=float) (map fofZ [20; 30; 40; 50]%Z)) (u_w (exCentral (map fofZ [20; 30; 40; 50]%Z))) = (Ok d, w') /\
  nltb (nofZ 54) (w_setpoint (u_w (exCentral (map fofZ [20; 30; 40; 50]%Z)))) = true /\ nltb (w_setpoint (u_w (exCentral (map fofZ [20; 30; 40; 50]%Z)))) (nofZ 56) = true.
Proof.
  assert (X : (match fst (simTo (exCentral (T:=float) (map fofZ [20; 30; 40; 50]%Z)) (u_w (exCentral (map fofZ [20; 30; 40; 50]%Z)))) with Ok _ => true | _ => false end) = true) by (vm_compute; reflexivity).
  destruct (simTo (exCentral (T:=float) (map fofZ [20; 30; 40; 50]%Z)) (u_w (exCentral (map fofZ [20; 30; 40; 50]%Z)))) as [[d|e|e|] w']; cbn [fst] in X; try discriminate.
  exists d, w'. split; [reflexivity|]. split; vm_compute; reflexivity.
Qed.
Lemma C86_refuted_fact : exists (u : usim float) d1 w1 d2 w2 s1 s2,
  simTo u (u_w u) = (Ok d1, w1) /\ neqb (w_setpoint w1) (w_setpoint (u_w u)) = false /\
  simTo (mkusim w1 (u_names u) (u_rgi u) (u_cop u)) w1 = (Ok d2, w2) /\ du_setpoint d1 = Some s1 /\ du_setpoint d2 = Some s2 /\ neqb s1 s2 = false.
Proof.
  set (u := exCentral (T:=float) (map fofZ [20; 30; 40; 50]%Z)).
  assert (X : (match simTo u (u_w u) with
     | (Ok d1, w1) => match simTo (mkusim w1 (u_names u) (u_rgi u) (u_cop u)) w1 with
        | (Ok d2, w2) => match du_setpoint d1, du_setpoint d2 with Some s1, Some s2 => (negb (neqb (w_setpoint w1) (w_setpoint (u_w u))) && negb (neqb s1 s2))%bool | _, _ => false end
        | _ => false end
     | _ => false end) = true) by (vm_compute; reflexivity).
  clearbody u. destruct (simTo u (u_w u)) as [[d1|e|e|] w1] eqn:E1; try discriminate.
  destruct (simTo (mkusim w1 (u_names u) (u_rgi u) (u_cop u)) w1) as [[d2|e|e|] w2] eqn:E2; try discriminate.
  destruct (du_setpoint d1) as [s1|] eqn:E3; try discriminate. destruct (du_setpoint d2) as [s2|] eqn:E4; try discriminate.
  apply andb_true_iff in X. destruct X as [X1 X2]. apply negb_true_iff in X1, X2.
  exists u, d1, w1, d2, w2, s1, s2. splits; auto.
Qed.

(** ** C69: the ports of a central system *)
Lemma ports_R n h : (0 < n)%nat -> Rtrunc (IZR h / INR n * IZR (Z.of_nat n)) = h.
Proof.
  intros Hn. rewrite <- INR_IZR_INZ. assert (INR n <> 0) by (apply not_0_INR; lia). replace (IZR h / INR n * INR n) with (IZR h) by (field; auto).
  assert (FI : forall z, Rfloor (IZR z) = z) by (intros z; apply Rfloor_unique; lra).
  unfold Rtrunc. rcase; [unfold Rceil|]; rewrite <- ?opp_IZR, FI; lia.
Qed.
