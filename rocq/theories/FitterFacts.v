(** Proofs of the theorems stated in PropsFitter.v: Properties of the optimizer and of the generic-model procedures *)

From Coq Require Import ZArith String List Bool Reals Lra Lia Floats.
From Verif Require Import Num FNum Base Units Utils Types TankM Logic HeatSrc Step Setters Perf Rating Fitter Spec.
From Verif Require Import RList FrameProofs SimFrame ControlProofs StepEnergy SeqProofs Example.
Import ListNotations.
Local Open Scope R_scope.
(** ** C66 *)
(** the calls of [pf] that lead from one state to another, with arguments and results *)
Inductive calls {T S : Type} (pf : T -> M S T) : S -> list (T * T) -> S -> Prop :=
| ca_nil s : calls pf s [] s
| ca_cons s x v s1 cs s2 : pf x s = (Ok v, s1) -> calls pf s1 cs s2 -> calls pf s ((x, v) :: cs) s2.
(** v is between lo below and hi above the value sought *)
Definition near {T} `{Num T} (f hi lo v : T) : Prop := nleb v (nadd f hi) = true /\ nleb (nsub f lo) v = true.
(** two values that differ by less than 1e-20 *)
Definition flat {T} `{Num T} (a b : T) : Prop := nltb (nabs (nsub a b)) (dec 1 100000000000000000000) = true.

Lemma inBand_near {T} `{Num T} (f eps lo v : T) : nleb (nofZ 0) lo = true -> inBand f eps lo v = true -> near f eps lo v.
Proof. unfold inBand, near. intros ->. rewrite andb_true_iff. tauto. Qed.
Lemma abs_le_inv (x e : R) : Rabs x <= e -> - e <= x <= e.
Proof. unfold Rabs. destruct (Rcase_abs x); lra. Qed.
Lemma last_cons {A} (x : A) l d : last (x :: l) d = last l x.
Proof. revert x d. induction l as [|y l IH]; intros x d; [reflexivity|]. transitivity (last (y :: l) d); [reflexivity|]. rewrite (IH y d), (IH y x). reflexivity. Qed.

Lemma secLoop_S {T S} `{Num T} (pf : T -> M S T) f eps lo n i x1 f1 x2 f2 s :
  secLoop pf f eps lo (Datatypes.S n) i x1 f1 x2 f2 s =
  if inBand f eps lo f1 then (Ok (0%Z, x1, f1), s)
  else if nltb (nabs (nsub f1 f2)) (dec 1 100000000000000000000) then (Ok ((- i)%Z, x1, f1), s)
  else bind (pf (nadd x1 (ndiv (nmul (nsub x2 x1) (nsub f f1)) (nsub f2 f1))))
         (fun fN => secLoop pf f eps lo n (i + 1)%Z (nadd x1 (ndiv (nmul (nsub x2 x1) (nsub f f1)) (nsub f2 f1))) fN x1 f1) s.
Proof. cbn [secLoop]. destruct (inBand f eps lo f1); [reflexivity|]. destruct (nltb _ _); reflexivity. Qed.
Lemma secLoop_run {T S} `{Num T} (pf : T -> M S T) f eps lo n : nleb (nofZ 0) lo = true ->
  forall i x1 f1 x2 f2 s code x fx s',
  secLoop pf f eps lo n i x1 f1 x2 f2 s = (Ok (code, x, fx), s') ->
  exists cs, calls pf s cs s' /\ (length cs <= n)%nat /\ (x, fx) = last cs (x1, f1) /\
    ((code = 0%Z /\ near f eps lo fx) \/
     (code = (i + Z.of_nat n)%Z /\ length cs = n) \/
     (code = (- (i + Z.of_nat (length cs)))%Z /\
      exists y fy, In (y, fy) ((x2, f2) :: (x1, f1) :: cs) /\ flat fx fy)).
Proof.
  intros Hlo. induction n as [|n IH]; intros i x1 f1 x2 f2 s code x fx s' E.
  - cbn in E. injection E as E1 E2 E3 E4. subst. exists []. split; [constructor|]. split; [cbn; lia|]. split; [reflexivity|].
    right; left. split; [cbn; lia|reflexivity].
  - cbn [secLoop] in E. destruct (inBand f eps lo f1) eqn:Eb.
    { injection E as E1 E2 E3 E4. subst. exists []. split; [constructor|]. split; [cbn; lia|]. split; [reflexivity|].
      left. split; [reflexivity|]. apply inBand_near; assumption. }
    destruct (nltb (nabs (nsub f1 f2)) (dec 1 100000000000000000000)) eqn:Ef.
    { injection E as E1 E2 E3 E4. subst. exists []. split; [constructor|]. split; [cbn; lia|]. split; [reflexivity|].
      right; right. split; [cbn; lia|]. exists x2, f2. split; [left; reflexivity|exact Ef]. }
    apply bind_inv in E. destruct E as (fN & s1 & E1 & E2).
    apply IH in E2. destruct E2 as (cs & Hc & Hl & Hx & Ho).
    eexists. split; [econstructor; eassumption|]. split; [cbn; lia|]. split; [rewrite last_cons; exact Hx|].
    destruct Ho as [Ho|[[Ho1 Ho2]|(Ho1 & y & fy & Hi & Hf)]].
    + left; exact Ho.
    + right; left. split; [lia|cbn; lia].
    + right; right. split; [cbn [length]; lia|]. exists y, fy. split; [|exact Hf].
      cbn in Hi |- *. tauto.
Qed.

Lemma C66_secant_fact : forall (T S : Type) (N : Num T) (pf : T -> M S T) (f eps x1 f1 x2 f2 lo : T) s code x fx s',
  nleb (nofZ 0) lo = true ->
  secant pf f eps x1 (Some f1) x2 (Some f2) lo s = (Ok (code, x, fx), s') ->
  exists cs, calls pf s cs s' /\ (length cs <= 19)%nat /\
    ((x, fx) = last cs (x1, f1) \/
     (x, fx) = last cs (x2, f2) /\ nltb (nabs (nsub f f2)) (nabs (nsub f f1)) = true) /\
    ((code = 0%Z /\ near f eps lo fx) \/
     (code = 20%Z /\ length cs = 19%nat) \/
     (code = (- (1 + Z.of_nat (length cs)))%Z /\
      exists y fy, In (y, fy) ((x1, f1) :: (x2, f2) :: cs) /\ flat fx fy)).
Proof.
  intros T S N pf f eps x1 f1 x2 f2 lo s code x fx s' Hlo E. unfold secant, known in E.
  unfold bind at 1, ret at 1 in E. cbn [fst snd] in E.
  destruct (inBand f eps lo f1) eqn:Eb.
  { injection E as E1 E2 E3 E4. subst. exists []. split; [constructor|]. split; [cbn; lia|]. split; [left; reflexivity|].
    left. split; [reflexivity|]. apply inBand_near; assumption. }
  unfold bind, ret in E.
  destruct (nltb (nabs (nsub f f2)) (nabs (nsub f f1))) eqn:Es;
    apply (secLoop_run pf f eps lo 19 Hlo) in E; destruct E as (cs & Hc & Hl & Hx & Ho);
    exists cs; (split; [exact Hc|]); (split; [exact Hl|]).
  - split; [right; split; [exact Hx|reflexivity]|].
    destruct Ho as [Ho|[[Ho1 Ho2]|(Ho1 & y & fy & Hi & Hf)]].
    + left; exact Ho.
    + right; left. split; [lia|exact Ho2].
    + right; right. split; [lia|]. exists y, fy. split; [exact Hi|exact Hf].
  - split; [left; exact Hx|].
    destruct Ho as [Ho|[[Ho1 Ho2]|(Ho1 & y & fy & Hi & Hf)]].
    + left; exact Ho.
    + right; left. split; [lia|exact Ho2].
    + right; right. split; [lia|]. exists y, fy. split; [cbn in Hi |- *; tauto|exact Hf].
Qed.

Lemma C66_line_fact : forall (S : Type) (pf : R -> M S R) (a b f eps x1 x2 : R) s,
  (forall x s, exists s1, pf x s = (Ok (a * x + b), s1)) ->
  0 <= eps -> 1 / 100000000000000000000 <= Rabs (a * (x1 - x2)) ->
  exists code x fx s', secant pf f eps x1 (Some (a * x1 + b)) x2 (Some (a * x2 + b)) eps s = (Ok (code, x, fx), s') /\
    code = 0%Z /\ Rabs (fx - f) <= eps /\ fx = a * x + b /\
    (x = x1 \/ x = x2 \/ a * x + b = f).
Proof.
  intros S pf a b f eps x1 x2 s Hpf He Hs.
  assert (Hband : forall v, inBand f eps eps v = true <-> Rabs (v - f) <= eps).
  { intros v. unfold inBand. num_simpl. rewrite andb_true_iff, !Rleb_true.
    destruct (Rleb 0 eps) eqn:E; [|apply Rleb_false in E; lra].
    split; [intros [H1 H2]; apply Rabs_le; lra|]. intros H0. apply abs_le_inv in H0. lra. }
  assert (Hloop : forall u v, 1 / 100000000000000000000 <= Rabs (a * (u - v)) ->
    exists code x fx s', secLoop pf f eps eps 19 1 u (a * u + b) v (a * v + b) s = (Ok (code, x, fx), s') /\
    code = 0%Z /\ Rabs (fx - f) <= eps /\ fx = a * x + b /\ (x = u \/ a * x + b = f)).
  { intros u v Huv. rewrite (secLoop_S pf f eps eps 18).
    destruct (inBand f eps eps (a * u + b)) eqn:E1.
    { exists 0%Z, u, (a * u + b), s. split; [reflexivity|]. split; [reflexivity|].
      split; [apply Hband; exact E1|]. split; [reflexivity|left; reflexivity]. }
    assert (Hne : a * (v - u) <> 0).
    { intros H0. replace (a * (u - v)) with 0 in Huv by lra. rewrite Rabs_R0 in Huv. lra. }
    destruct (nltb (nabs (nsub (a * u + b) (a * v + b))) (dec 1 100000000000000000000)) eqn:E2.
    { exfalso. unfold nabs, dec in E2. num_simpl. apply Rltb_true in E2.
      replace (a * u + b - (a * v + b)) with (a * (u - v)) in E2 by ring.
      revert E2 Huv. generalize (a * (u - v)). intros z. unfold Rabs. destruct (Rltb z 0) eqn:Ez;
        [apply Rltb_true in Ez|apply Rltb_false in Ez]; destruct (Rcase_abs z); intros; lra. }
    set (xN := nadd u (ndiv (nmul (nsub v u) (nsub f (a * u + b))) (nsub (a * v + b) (a * u + b)))).
    assert (HN : a * xN + b = f).
    { unfold xN. num_simpl. replace (a * v + b - (a * u + b)) with (a * (v - u)) by ring. field.
      split; intros H0; apply Hne; [replace (v - u) with 0 by lra|rewrite H0]; ring. }
    destruct (Hpf xN s) as [s1 Hs1]. fold xN. unfold bind. rewrite Hs1, HN. rewrite (secLoop_S pf f eps eps 17).
    assert (E3 : inBand f eps eps f = true).
    { apply Hband. replace (f - f) with 0 by ring. rewrite Rabs_R0. exact He. }
    rewrite E3. exists 0%Z, xN, f, s1. split; [reflexivity|]. split; [reflexivity|].
    split; [replace (f - f) with 0 by ring; rewrite Rabs_R0; exact He|]. split; [symmetry; exact HN|right; exact HN]. }
  unfold secant, known. unfold bind, ret.
  destruct (inBand f eps eps (a * x1 + b)) eqn:E1.
  { exists 0%Z, x1, (a * x1 + b), s. split; [reflexivity|]. split; [reflexivity|].
    split; [apply Hband; exact E1|]. split; [reflexivity|left; reflexivity]. }
  destruct (nltb _ _).
  - destruct (Hloop x2 x1) as (code & x & fx & s' & H1 & H2 & H3 & H4 & H5).
    { replace (a * (x2 - x1)) with (- (a * (x1 - x2))) by ring. rewrite Rabs_Ropp. exact Hs. }
    exists code, x, fx, s'. split; [exact H1|]. split; [exact H2|]. split; [exact H3|]. split; [exact H4|tauto].
  - destruct (Hloop x1 x2 Hs) as (code & x & fx & s' & H1 & H2 & H3 & H4 & H5).
    exists code, x, fx, s'. split; [exact H1|]. split; [exact H2|]. split; [exact H3|]. split; [exact H4|tauto].
Qed.

Lemma C66_fit_fact : forall (T S : Type) (N : Num T) (m : metric T S) (p : param T S) s o s',
  let tol := dec 1 1000000000000 in
  let v0 := pa_get p s in let v1 := nadd v0 (pa_incr p) in
  nleb (nofZ 0) (tol : T) = true ->
  fit [m] [p] s = (o, s') ->
  (forall f0 s0 f1 s1,
    me_eval m s = (Ok f0, s0) -> me_eval m (pa_set p v1 s0) = (Ok f1, s1) ->
    (forall x t, exists v t', me_eval m (pa_set p x t) = (Ok v, t')) ->
    exists cs, calls (fun x t => me_eval m (pa_set p x t)) (pa_set p v0 s1) cs s' /\ (length cs <= 19)%nat /\
     exists x fx, In (x, fx) [(v0, f0); (v1, f1)] /\
       (o = Ok tt /\ near (me_target m) tol tol (snd (last cs (x, fx))) \/
        o = Ok tt /\ length cs = 19%nat \/
        o = Err "Failure in makeGenericModel using secant" /\
          exists y fy, In (y, fy) ([(v0, f0); (v1, f1)] ++ cs) /\ flat (snd (last cs (x, fx))) fy)).
Proof.
  intros T S N m p s o s' tol v0 v1 Htol E f0 s0 f1 s1 E0 E1 Htot.
  unfold fit, fitOne in E.
  unfold bind at 1, get at 1 in E. cbn [fst snd] in E. fold v0 in E.
  unfold bind at 1 in E. rewrite E0 in E. cbn zeta in E. fold v1 in E.
  unfold bind at 1, modify at 1 in E. unfold bind at 1 in E. rewrite E1 in E.
  unfold bind at 1, modify at 1 in E. unfold bind at 1 in E. fold tol in E.
  destruct (secant (single m p) (me_target m) tol v0 (Some f0) v1 (Some f1) tol (pa_set p v0 s1)) as [os ss] eqn:Es.
  assert (Hok : exists r, os = Ok r).
  { clear E. assert (Hl : forall n i x1 g1 x2 g2 t, exists r, fst (secLoop (single m p) (me_target m) tol tol n i x1 g1 x2 g2 t) = Ok r).
    { induction n as [|n IH]; intros i x1 g1 x2 g2 t; cbn [secLoop]; [eexists; reflexivity|].
      destruct (inBand _ _ _ _); [eexists; reflexivity|]. destruct (nltb _ _); [eexists; reflexivity|].
      cbn zeta. unfold bind at 1.
      match goal with |- context [single m p ?y t] => set (y0 := y) end.
      destruct (Htot y0 t) as (v & t' & Hv). unfold single at 1, bind at 1, modify. rewrite Hv. apply IH. }
    unfold secant, known in Es. unfold bind, ret in Es.
    destruct (inBand _ _ _ _); [injection Es as <- _; eexists; reflexivity|].
    destruct (nltb (nabs _) (nabs _)).
    - destruct (Hl 19%nat 1%Z v1 f1 v0 f0 (pa_set p v0 s1)) as [r Hr]. rewrite Es in Hr. exists r. exact Hr.
    - destruct (Hl 19%nat 1%Z v0 f0 v1 f1 (pa_set p v0 s1)) as [r Hr]. rewrite Es in Hr. exists r. exact Hr. }
  destruct Hok as [[[code x] fx] ->]. cbn iota in E.
  apply C66_secant_fact in Es; [|exact Htol].
  destruct Es as (cs & Hc & Hl & Hx & Ho).
  assert (Hss : ss = s') by (destruct (Z.ltb code 0); [injection E as _ <-|injection E as _ <-]; reflexivity). subst ss.
  exists cs. split; [|split; [exact Hl|]].
  { clear -Hc. induction Hc; [constructor|]. econstructor; [|exact IHHc]. exact H. }
  assert (exists a fa, In (a, fa) [(v0, f0); (v1, f1)] /\ (x, fx) = last cs (a, fa)) as (a & fa & Ha & Hx').
  { destruct Hx as [Hx|[Hx _]]; [exists v0, f0|exists v1, f1]; (split; [cbn; auto|exact Hx]). }
  exists a, fa. split; [exact Ha|]. rewrite <- Hx'. cbn [snd].
  destruct Ho as [[Ho1 Ho2]|[[Ho1 Ho2]|(Ho1 & y & fy & Hi & Hf)]].
  - subst code. cbn in E. injection E as E. subst o. left. split; [reflexivity|exact Ho2].
  - subst code. cbn in E. injection E as E. subst o. right; left. split; [reflexivity|exact Ho2].
  - right; right. replace (Z.ltb code 0) with true in E by (symmetry; apply Z.ltb_lt; lia).
    injection E as E. subst o. split; [reflexivity|]. exists y, fy. split; [exact Hi|exact Hf].
Qed.

(** a metric that only looks at one parameter, and evaluating it leaves that parameter alone *)
Definition pure1 {S} (m : metric R S) (p : param R S) (F : R -> R) : Prop :=
  (forall x s, pa_get p (pa_set p x s) = x) /\
  (forall s, exists s1, me_eval m s = (Ok (F (pa_get p s)), s1) /\ pa_get p s1 = pa_get p s).

Lemma calls_last {S} (m : metric R S) p F : pure1 m p F ->
  forall s cs s', calls (fun x t => me_eval m (pa_set p x t)) s cs s' -> cs <> [] ->
  forall d, snd (last cs d) = F (pa_get p s').
Proof.
  intros [Hg He] s cs s' Hc. induction Hc as [s|s x v s1 cs s2 E Hc IH]; [congruence|]. intros _ d.
  rewrite last_cons. destruct cs as [|c cs].
  - inversion Hc; subst. cbn. destruct (He (pa_set p x s)) as (s3 & E3 & E4). rewrite E3 in E. injection E as E E'.
    subst. rewrite E4, Hg. reflexivity.
  - apply IH. discriminate.
Qed.

Lemma C66_fit_result_fact : forall (S : Type) (m : metric R S) (p : param R S) (F : R -> R) s s',
  pure1 m p F -> fit [m] [p] s = (Ok tt, s') ->
  Rabs (F (pa_get p s') - me_target m) <= 1 / 1000000000000 \/
  (pa_get p s' = pa_get p s /\ Rabs (F (pa_get p s + pa_incr p) - me_target m) <= 1 / 1000000000000) \/
  exists s1 cs, calls (fun x t => me_eval m (pa_set p x t)) s1 cs s' /\ length cs = 19%nat.
Proof.
  intros S m p F s s' HF E. pose proof HF as [Hg He].
  destruct (He s) as (s0 & E0 & G0).
  destruct (He (pa_set p (nadd (pa_get p s) (pa_incr p)) s0)) as (s1 & E1 & G1). rewrite Hg in E1, G1.
  assert (Htol : nleb (nofZ 0) (dec 1 1000000000000 : R) = true).
  { unfold dec. num_simpl. apply Rleb_true. lra. }
  pose proof (C66_fit_fact R S RNum m p s _ s' Htol E _ _ _ _ E0 E1) as HC. cbn zeta in HC.
  destruct HC as (cs & Hc & Hl & x & fx & Hi & Ho).
  { intros x t. destruct (He (pa_set p x t)) as (t1 & Et & _). eexists. eexists. exact Et. }
  assert (Hn : forall v, near (me_target m) (dec 1 1000000000000) (dec 1 1000000000000) v -> Rabs (v - me_target m) <= 1 / 1000000000000).
  { intros v. unfold near, dec. num_simpl. rewrite !Rleb_true. intros [A B]. apply Rabs_le. lra. }
  destruct Ho as [[_ Ho]|[[_ Ho]|[Ho _]]]; [|right; right; exists (pa_set p (pa_get p s) s1), cs; split; assumption|discriminate].
  apply Hn in Ho. destruct cs as [|c cs].
  - inversion Hc; subst. cbn in Ho. rewrite Hg. cbn in Hi. destruct Hi as [Hi|[Hi|[]]]; injection Hi as <- <-.
    + left. exact Ho.
    + right; left. split; [reflexivity|]. exact Ho.
  - left. rewrite (calls_last m p F HF _ _ _ Hc) in Ho by discriminate. exact Ho.
Qed.

(** the state is the parameter, the metric a function of it *)
Definition plainParam {T} (incr : T) : param T T := mkparam (fun s => s) (fun x _ => x) incr.
Definition plainMetric {T} (F : T -> T) (target tol : T) : metric T T := mkmetric (fun s => (Ok (F s), s)) target tol.
Lemma plain_pure F target tol incr : pure1 (plainMetric F target tol) (plainParam incr) F.
Proof. split; [reflexivity|]. intros s. exists s. split; reflexivity. Qed.

Lemma C66_second_guess_fact : forall (S : Type) (m : metric R S) (p : param R S) (F : R -> R) s,
  pure1 m p F ->
  Rabs (F (pa_get p s) - me_target m) > 1 / 1000000000000 ->
  Rabs (F (pa_get p s + pa_incr p) - me_target m) <= 1 / 1000000000000 ->
  exists s', fit [m] [p] s = (Ok tt, s') /\ pa_get p s' = pa_get p s.
Proof.
  intros S m p F s [Hg He] H0 H1.
  destruct (He s) as (s0 & E0 & G0).
  destruct (He (pa_set p (nadd (pa_get p s) (pa_incr p)) s0)) as (s1 & E1 & G1). rewrite Hg in E1, G1.
  unfold fit, fitOne. unfold bind at 1, get at 1. cbn [fst snd].
  unfold bind at 1. rewrite E0. cbn zeta. unfold bind at 1, modify at 1. unfold bind at 1. rewrite E1.
  unfold bind at 1, modify at 1.
  set (e := dec 1 1000000000000). set (v1 := F (nadd (pa_get p s) (pa_incr p))).
  set (x1 := nadd (pa_get p s) (pa_incr p)).
  assert (Hband : forall v, inBand (me_target m) e e v = true <-> Rabs (v - me_target m) <= 1 / 1000000000000).
  { intros v. unfold inBand, e, dec. num_simpl. rewrite andb_true_iff, !Rleb_true.
    destruct (Rleb 0 _) eqn:E; [|apply Rleb_false in E; lra].
    split; [intros [A B]; apply Rabs_le; lra|]. intros A. apply abs_le_inv in A. lra. }
  unfold secant, known. unfold bind at 1. unfold bind at 1. unfold ret at 1.
  destruct (inBand (me_target m) e e (F (pa_get p s))) eqn:B0; [apply Hband in B0; lra|].
  unfold bind at 1, ret at 1.
  assert (Hsw : nltb (nabs (nsub (me_target m) v1)) (nabs (nsub (me_target m) (F (pa_get p s)))) = true).
  { assert (Hab : forall z : R, nabs z = Rabs z).
    { intros z. unfold nabs. num_simpl. unfold Rabs. destruct (Rltb z 0) eqn:Ez;
        [apply Rltb_true in Ez|apply Rltb_false in Ez]; destruct (Rcase_abs z); lra. }
    rewrite !Hab. num_simpl. apply Rltb_true. rewrite (Rabs_minus_sym _ v1), (Rabs_minus_sym _ (F (pa_get p s))).
    subst v1 x1. cbn in H1 |- *. lra. }
  rewrite Hsw. rewrite (secLoop_S _ _ _ _ 18).
  assert (B1 : inBand (me_target m) e e v1 = true) by (apply Hband; exact H1).
  rewrite B1. cbn [Z.ltb Z.compare]. eexists. split; [reflexivity|]. apply Hg.
Qed.

Lemma C66_success_refuted_fact : exists (F : R -> R) (target s s' : R),
  fit [plainMetric F target (1 / 1000000)] [plainParam (1 / 1000000000)] s = (Ok tt, s') /\
  Rabs (F s' - target) > 1 / 1000000000000.
Proof.
  exists (fun x => x), (1 / 1000000000), 0.
  destruct (C66_second_guess_fact R (plainMetric (fun x => x) (1 / 1000000000) (1 / 1000000)) (plainParam (1 / 1000000000)) (fun x => x) 0) as (s' & E & G).
  - apply plain_pure.
  - cbn. rewrite Rabs_left; lra.
  - cbn. replace (0 + 1 / 1000000000 - 1 / 1000000000) with 0 by ring. rewrite Rabs_R0. lra.
  - exists s'. split; [exact E|]. cbn in G. rewrite G. rewrite Rabs_left; lra.
Qed.

Lemma C66_converged_refuted_fact : exists (F : float -> float) (target s s' : float),
  fit [plainMetric F target (dec 1 1000000)] [plainParam (dec 1 1000000000)] s = (Ok tt, s') /\
  (1 <=? F s')%float = true /\ target = 0%float.
Proof.
  exists (fun x => x * x + 1)%float, 0%float, 0.5%float. eexists.
  split; [vm_compute; reflexivity|]. split; vm_compute; reflexivity.
Qed.

(** A fit reduces to a search once the metric is known at the two guesses. *)
Lemma fit_secant {S} (m : metric R S) (p : param R S) s f0 s0 f1 s1 code x fx s' :
  me_eval m s = (Ok f0, s0) -> me_eval m (pa_set p (pa_get p s + pa_incr p) s0) = (Ok f1, s1) ->
  secant (single m p) (me_target m) (dec 1 1000000000000) (pa_get p s) (Some f0) (pa_get p s + pa_incr p) (Some f1)
    (dec 1 1000000000000) (pa_set p (pa_get p s) s1) = (Ok (code, x, fx), s') ->
  Z.ltb code 0 = false -> fit [m] [p] s = (Ok tt, s').
Proof.
  intros E0 E1 E2 Hc. unfold fit, fitOne. unfold bind at 1, get at 1. cbn zeta.
  unfold bind at 1. rewrite E0. unfold bind at 1, modify at 1. unfold bind at 1.
  change (nadd (pa_get p s) (pa_incr p)) with (pa_get p s + pa_incr p).
  rewrite E1. unfold bind at 1, modify at 1. unfold bind at 1. rewrite E2, Hc. reflexivity.
Qed.
Lemma dec12 : (dec 1 1000000000000 : R) = 1 / 1000000000000.
Proof. reflexivity. Qed.

Lemma C66_fit_line_fact : forall (S : Type) (m : metric R S) (p : param R S) (a b : R) s,
  pure1 m p (fun x => a * x + b) ->
  1 / 100000000000000000000 <= Rabs (a * pa_incr p) ->
  Rabs (a * (pa_get p s + pa_incr p) + b - me_target m) > 1 / 1000000000000 ->
  exists s', fit [m] [p] s = (Ok tt, s') /\ Rabs (a * pa_get p s' + b - me_target m) <= 1 / 1000000000000.
Proof.
  intros S m p a b s HF Hs H1. pose proof HF as [Hg He].
  destruct (He s) as (s0 & E0 & G0).
  destruct (He (pa_set p (pa_get p s + pa_incr p) s0)) as (s1 & E1 & G1). rewrite Hg in E1, G1.
  destruct (C66_line_fact S (single m p) a b (me_target m) (1 / 1000000000000) (pa_get p s) (pa_get p s + pa_incr p)
              (pa_set p (pa_get p s) s1)) as (code & x & fx & s' & E & Hc & Hn & Hfx & Hw).
  - intros y t. destruct (He (pa_set p y t)) as (t1 & Et & _). rewrite Hg in Et. exists t1. exact Et.
  - lra.
  - replace (a * (pa_get p s - (pa_get p s + pa_incr p))) with (- (a * pa_incr p)) by ring. rewrite Rabs_Ropp. exact Hs.
  - subst code. exists s'. split.
    { apply (fit_secant m p s _ _ _ _ 0%Z x fx s' E0 E1); [rewrite dec12; exact E|reflexivity]. }
    assert (Hlo : nleb (nofZ 0) (1 / 1000000000000 : R) = true) by (num_simpl; apply Rleb_true; lra).
    apply C66_secant_fact in E; [|exact Hlo]. destruct E as (cs & Hcs & _ & Hx & _).
    destruct cs as [|c cs].
    + assert (Hs' : s' = pa_set p (pa_get p s) s1) by (inversion Hcs; reflexivity). rewrite Hs', Hg. rewrite Hfx in Hn.
      cbn [last] in Hx. destruct Hx as [Hx|[Hx _]]; injection Hx as Hx1 Hx2; rewrite Hx1 in Hn; [exact Hn|lra].
    + rewrite <- (calls_last m p (fun x => a * x + b) HF _ (c :: cs) s' Hcs ltac:(discriminate) (x, fx)).
      destruct Hx as [Hx|[Hx _]]; rewrite last_cons in Hx |- *; rewrite <- Hx; exact Hn.
Qed.

Lemma C66_example_fact : exists s', fit [plainMetric (fun x : R => 3 * x + 2) 11 (1 / 1000000)] [plainParam (1 / 1000000000)] 1 = (Ok tt, s') /\
  Rabs (3 * s' + 2 - 11) <= 1 / 1000000000000.
Proof.
  apply (C66_fit_line_fact R (plainMetric (fun x : R => 3 * x + 2) 11 (1 / 1000000)) (plainParam (1 / 1000000000)) 3 2 1).
  - apply plain_pure.
  - cbn [pa_incr plainParam]. rewrite Rabs_right; lra.
  - cbn [pa_incr pa_get plainParam me_target plainMetric]. rewrite Rabs_left; lra.
Qed.

Lemma liftS_inv {S A} (o : outc A) (s : S) a s' : lift o s = (Ok a, s') -> s' = s /\ o = Ok a.
Proof. intros E. injection E as -> ->. split; reflexivity. Qed.
Lemma retS_inv {S A} (b : A) (s : S) a s' : ret b s = (Ok a, s') -> s' = s /\ b = a.
Proof. intros E. injection E as -> ->. split; reflexivity. Qed.
Lemma mod_inv {S} (f : S -> S) s u s' : modify f s = (Ok u, s') -> s' = f s.
Proof. intros E. injection E as _ <-. reflexivity. Qed.

Lemma C66_damped_inverse_fact : forall nu a b x y : R,
  leftDampedInverse nu a b = Some (x, y) ->
  (1 + nu) * (a * a) * x + a * b * y = a /\ a * b * x + (1 + nu) * (b * b) * y = b.
Proof.
  intros nu a b x y. unfold leftDampedInverse. num_simpl.
  set (det := (1 + nu) * a * a * ((1 + nu) * b * b) - a * b * (a * b)).
  destruct (Rltb (nabs det) _) eqn:E; [discriminate|]. intros E1. injection E1 as <- <-.
  assert (Hd : det <> 0).
  { intros H0. rewrite H0 in E. apply Rltb_false in E. unfold nabs, dec in E. num_simpl.
    destruct (Rltb 0 0) eqn:E2; [apply Rltb_true in E2|]; lra. }
  split; field_simplify_eq; try exact Hd; unfold det; ring.
Qed.
Lemma C66_damped_example_fact : exists x y : R, leftDampedInverse 1 1 2 = Some (x, y).
Proof.
  unfold leftDampedInverse. num_simpl. destruct (Rltb _ _) eqn:E; [|eexists; eexists; reflexivity].
  apply Rltb_true in E. unfold nabs, dec in E. num_simpl. destruct (Rltb _ 0) eqn:E2 in E; [apply Rltb_true in E2; lra|lra].
Qed.

(** a metric that only looks at two separate parameters, and evaluating it leaves them alone *)
Definition pure2 {S} (m : metric R S) (p q : param R S) (F : R -> R -> R) : Prop :=
  (forall x s, pa_get p (pa_set p x s) = x) /\ (forall x s, pa_get q (pa_set q x s) = x) /\
  (forall x s, pa_get q (pa_set p x s) = pa_get q s) /\ (forall x s, pa_get p (pa_set q x s) = pa_get p s) /\
  (forall s, exists s1, me_eval m s = (Ok (F (pa_get p s) (pa_get q s)), s1) /\
                        pa_get p s1 = pa_get p s /\ pa_get q s1 = pa_get q s).

Lemma findError_pure {S} (m : metric R S) p q F s o s' : pure2 m p q F -> me_tol m <> 0 ->
  findError m s = (o, s') ->
  o = Ok ((F (pa_get p s) (pa_get q s) - me_target m) / me_tol m) /\ pa_get p s' = pa_get p s /\ pa_get q s' = pa_get q s.
Proof.
  intros (_ & _ & _ & _ & He) Ht E. destruct (He s) as (s1 & E1 & G1 & G2).
  unfold findError, bind in E. rewrite E1 in E. unfold lift, div_chk in E. num_simpl.
  destruct (Reqb' (me_tol m) 0) eqn:E2; [apply Reqb'_true in E2; contradiction|]. cbn in E. injection E as <- <-.
  split; [reflexivity|]. split; assumption.
Qed.

Lemma slopeOf_pure {S} (m : metric R S) p q F r v e i s j s' : pure2 m p q F -> me_tol m <> 0 ->
  (r = p /\ v = pa_get p s) \/ (r = q /\ v = pa_get q s) ->
  slopeOf m r v e i s = (Ok j, s') -> pa_get p s' = pa_get p s /\ pa_get q s' = pa_get q s.
Proof.
  intros HF Ht Hr E. pose proof HF as (G1 & G2 & G3 & G4 & He). unfold slopeOf in E.
  apply bind_inv in E. destruct E as (u & s1 & E1 & E). apply mod_inv in E1. subst s1.
  apply bind_inv in E. destruct E as (e1 & s2 & E2 & E).
  apply (findError_pure m p q F _ _ _ HF Ht) in E2. destruct E2 as (_ & A1 & A2).
  apply bind_inv in E. destruct E as (j1 & s3 & E3 & E). apply liftS_inv in E3. destruct E3 as [-> _].
  apply bind_inv in E. destruct E as (u1 & s4 & E4 & E). apply mod_inv in E4. subst s4.
  apply retS_inv in E. destruct E as [-> _].
  destruct Hr as [[-> ->]|[-> ->]].
  - rewrite G1, G3, A2, G3. split; reflexivity.
  - rewrite G2, G4, A1, G4. split; reflexivity.
Qed.

(** squared error of the metric at the parameters of a state *)
Definition err2 {S} (m : metric R S) (p q : param R S) (F : R -> R -> R) (s : S) : R :=
  ((F (pa_get p s) (pa_get q s) - me_target m) / me_tol m) * ((F (pa_get p s) (pa_get q s) - me_target m) / me_tol m).

Lemma tryStep_pure {S} (m : metric R S) p q F e FOM inv s r s' : pure2 m p q F -> me_tol m <> 0 ->
  FOM = err2 m p q F s ->
  tryStep m p q (pa_get p s) (pa_get q s) e FOM inv s = (Ok r, s') ->
  match r with
  | None => pa_get p s' = pa_get p s /\ pa_get q s' = pa_get q s
  | Some (_, _, FOM') => FOM' = err2 m p q F s' /\ FOM' < FOM
  end.
Proof.
  intros HF Ht HFOM E. pose proof HF as (G1 & G2 & G3 & G4 & He). unfold tryStep in E. destruct inv as [ia ib].
  set (a := nadd (pa_get p s) (nmul (nopp ia) e)) in E. set (b := nadd (pa_get q s) (nmul (nopp ib) e)) in E.
  apply bind_inv in E. destruct E as (u & s1 & E1 & E). apply mod_inv in E1. subst s1.
  apply bind_inv in E. destruct E as (u1 & s1 & E1 & E). apply mod_inv in E1. subst s1.
  apply bind_inv in E. destruct E as (e1 & s2 & E2 & E).
  apply (findError_pure m p q F _ _ _ HF Ht) in E2. destruct E2 as (Q & A1 & A2). injection Q as Q.
  rewrite G4, G1, G2 in Q. rewrite G4, G1 in A1. rewrite G2 in A2.
  apply bind_inv in E. destruct E as (u2 & s1 & E1 & E). apply mod_inv in E1. subst s1.
  apply bind_inv in E. destruct E as (u3 & s1 & E1 & E). apply mod_inv in E1. subst s1.
  destruct (nltb (nmul e1 e1) FOM) eqn:El.
  - apply bind_inv in E. destruct E as (u4 & s1 & E1 & E). apply mod_inv in E1. subst s1.
    apply bind_inv in E. destruct E as (u5 & s1 & E1 & E). apply mod_inv in E1. subst s1.
    apply retS_inv in E. destruct E as [-> E]. subst r. split.
    + unfold err2. rewrite G4, G1, G2, Q. reflexivity.
    + num_simpl. apply Rltb_true in El. exact El.
  - apply retS_inv in E. destruct E as [-> E]. subst r. rewrite G4, G1, G2. split; reflexivity.
Qed.

Lemma bind_cases {S A B} (m : M S A) (k : A -> M S B) s o s' : bind m k s = (o, s') ->
  (exists a s1, m s = (Ok a, s1) /\ k a s1 = (o, s')) \/
  (exists e, m s = (Err e, s') /\ o = Err e) \/ (exists e, o = UB e) \/ o = NoFuel.
Proof.
  unfold bind. destruct (m s) as [[a|e|e|] s1]; intros E.
  - left. eauto.
  - injection E as <- <-. right; left. eauto.
  - injection E as <- <-. right; right; left. eauto.
  - injection E as <- <-. right; right; right. reflexivity.
Qed.
Lemma slopeOf_noErr {S} (m : metric R S) p q F r v e i s msg s' : pure2 m p q F -> me_tol m <> 0 ->
  slopeOf m r v e i s = (Err msg, s') -> False.
Proof.
  intros HF Ht E. unfold slopeOf in E.
  apply bind_cases in E. destruct E as [(u & s1 & E1 & E)|[(x & E & _)|[[x E]|E]]]; [|discriminate..].
  apply bind_cases in E. destruct E as [(u1 & s2 & E2 & E)|[(x & E & _)|[[x E]|E]]].
  2: apply (findError_pure m p q F _ _ _ HF Ht) in E; destruct E as [E _]; discriminate.
  2, 3: discriminate.
  apply bind_cases in E. destruct E as [(u3 & s3 & E3 & E)|[(x & E & _)|[[x E]|E]]].
  2: unfold lift, div_chk in E; destruct (ndivok i); discriminate.
  2, 3: discriminate.
  discriminate.
Qed.
Lemma tryStep_noErr {S} (m : metric R S) p q F a b e FOM inv s msg s' : pure2 m p q F -> me_tol m <> 0 ->
  tryStep m p q a b e FOM inv s = (Err msg, s') -> False.
Proof.
  intros HF Ht E. unfold tryStep in E. destruct inv as [ia ib].
  apply bind_cases in E. destruct E as [(u & s1 & E1 & E)|[(x & E & _)|[[x E]|E]]]; [|discriminate..].
  apply bind_cases in E. destruct E as [(u1 & s2 & E2 & E)|[(x & E & _)|[[x E]|E]]]; [|discriminate..].
  apply bind_cases in E. destruct E as [(u2 & s3 & E3 & E)|[(x & E & _)|[[x E]|E]]].
  2: apply (findError_pure m p q F _ _ _ HF Ht) in E; destruct E as [E _]; discriminate.
  2, 3: discriminate.
  destruct (nltb (nmul u2 u2) FOM) eqn:El; cbn in E; rewrite ?El in E; discriminate.
Qed.

Lemma lsqLoop_run {S} (m : metric R S) p q F : pure2 m p q F -> me_tol m <> 0 ->
  forall n nu ip iq s o s', lsqLoop m p q n nu ip iq s = (o, s') ->
  (o = Ok tt -> err2 m p q F s' < 1 / 1000000000000 /\ err2 m p q F s' <= err2 m p q F s) /\
  (forall msg, o = Err msg -> err2 m p q F s' <= err2 m p q F s).
Proof.
  intros HF Ht.
  assert (Hsame : forall a b, pa_get p a = pa_get p b -> pa_get q a = pa_get q b -> err2 m p q F a = err2 m p q F b).
  { intros a b A B. unfold err2. rewrite A, B. reflexivity. }
  induction n as [|n IH]; intros nu ip iq s o s' E.
  { cbn in E. injection E as <- <-. split; [discriminate|]. intros; lra. }
  cbn [lsqLoop] in E.
  apply bind_cases in E. destruct E as [(error & s1 & E1 & E)|[(x & E & Eo)|[[x E]|E]]].
  2: apply (findError_pure m p q F _ _ _ HF Ht) in E; destruct E as [E _]; discriminate.
  2, 3: subst o; split; discriminate.
  apply (findError_pure m p q F _ _ _ HF Ht) in E1. destruct E1 as (Q & A1 & A2). injection Q as Q.
  cbn zeta in E. unfold bind at 1, get at 1 in E.
  apply bind_cases in E. destruct E as [(ja & s2 & E2 & E)|[(x & E & Eo)|[[x E]|E]]].
  2: apply (slopeOf_noErr m p q F _ _ _ _ _ _ _ HF Ht) in E; contradiction.
  2, 3: subst o; split; discriminate.
  apply (slopeOf_pure m p q F) in E2; [|exact HF|exact Ht|left; split; reflexivity]. destruct E2 as (B1 & B2).
  apply bind_cases in E. destruct E as [(jb & s3 & E3 & E)|[(x & E & Eo)|[[x E]|E]]].
  2: apply (slopeOf_noErr m p q F _ _ _ _ _ _ _ HF Ht) in E; contradiction.
  2, 3: subst o; split; discriminate.
  apply (slopeOf_pure m p q F) in E3; [|exact HF|exact Ht|right; split; [reflexivity|symmetry; exact B2]]. destruct E3 as (C1 & C2).
  assert (P3 : pa_get p s1 = pa_get p s3) by (rewrite C1, B1; reflexivity).
  assert (Q3 : pa_get q s1 = pa_get q s3) by (rewrite C2, B2; reflexivity).
  assert (H3 : err2 m p q F s3 = err2 m p q F s) by (apply Hsame; [rewrite <- P3; exact A1|rewrite <- Q3; exact A2]).
  assert (HFOM : nmul error error = err2 m p q F s3) by (rewrite H3; unfold err2; rewrite Q; reflexivity).
  apply bind_cases in E. destruct E as [(r & s4 & E4 & E)|[(x & E & Eo)|[[x E]|E]]].
  2:{ exfalso. destruct (leftDampedInverse nu ja jb); [|discriminate].
      apply (tryStep_noErr m p q F _ _ _ _ _ _ _ _ HF Ht) in E. exact E. }
  2, 3: subst o; split; discriminate.
  assert (Hr : match r with
               | None => err2 m p q F s4 = err2 m p q F s
               | Some (_, _, FOM') => FOM' = err2 m p q F s4 /\ FOM' < err2 m p q F s
               end).
  { destruct (leftDampedInverse nu ja jb) as [inv|].
    - rewrite P3, Q3 in E4. apply (tryStep_pure m p q F) in E4; [|exact HF|exact Ht|exact HFOM].
      destruct r as [[[ip' iq'] FOM']|].
      + destruct E4 as [D1 D2]. split; [exact D1|]. rewrite HFOM, H3 in D2. exact D2.
      + destruct E4 as [D1 D2]. rewrite <- H3. apply Hsame; assumption.
    - apply retS_inv in E4. destruct E4 as [-> E4]. subst r. exact H3. }
  destruct r as [[[ip' iq'] FOM']|].
  - destruct Hr as [D1 D2]. destruct (nltb FOM' (dec 1 1000000000000)) eqn:El.
    + injection E as <- <-. unfold dec in El. num_simpl. apply Rltb_true in El. split; [intros _; rewrite <- D1; lra|discriminate].
    + apply IH in E. destruct E as [I1 I2]. split.
      * intros Ho. specialize (I1 Ho). lra.
      * intros msg Ho. specialize (I2 msg Ho). lra.
  - cbn zeta in E. destruct (nltb (nofZ 1000000) (nmul nu (nofZ 10))).
    + injection E as <- <-. split; [discriminate|]. intros; lra.
    + destruct (nltb (nmul error error) (dec 1 1000000000000)) eqn:El.
      * injection E as <- <-. rewrite HFOM, H3 in El. unfold dec in El. num_simpl. apply Rltb_true in El.
        split; [intros _; rewrite Hr; lra|discriminate].
      * apply IH in E. rewrite Hr in E. exact E.
Qed.

Lemma fit_two {T S} `{Num T} (m : metric T S) p q s :
  fit [m] [p; q] s = lsqLoop m p q 20 (dec 1 1000) (pa_incr p) (pa_incr q) s.
Proof. reflexivity. Qed.

Lemma C66_least_squares_fact : forall (S : Type) (m : metric R S) (p q : param R S) (F : R -> R -> R) s o s',
  pure2 m p q F -> 0 < me_tol m -> fit [m] [p; q] s = (o, s') ->
  (o = Ok tt -> Rabs (F (pa_get p s') (pa_get q s') - me_target m) < me_tol m / 1000000) /\
  ((o = Ok tt \/ exists msg, o = Err msg) ->
   Rabs (F (pa_get p s') (pa_get q s') - me_target m) <= Rabs (F (pa_get p s) (pa_get q s) - me_target m)).
Proof.
  intros S m p q F s o s' HF Ht E. rewrite fit_two in E.
  apply (lsqLoop_run m p q F HF ltac:(lra)) in E. destruct E as [E1 E2].
  assert (Hsq : forall t, err2 m p q F t = Rsqr (Rabs (F (pa_get p t) (pa_get q t) - me_target m) / me_tol m)).
  { intros t. unfold err2. set (z := F (pa_get p t) (pa_get q t) - me_target m).
    transitivity (Rsqr z / Rsqr (me_tol m)); [unfold Rsqr; field; lra|]. rewrite (Rsqr_abs z). unfold Rsqr. field. lra. }
  assert (Hpos : forall t, 0 <= Rabs (F (pa_get p t) (pa_get q t) - me_target m) / me_tol m).
  { intros t. apply Rmult_le_pos; [apply Rabs_pos|]. left. apply Rinv_0_lt_compat. exact Ht. }
  split.
  - intros Ho. destruct (E1 Ho) as [E3 _]. rewrite Hsq in E3.
    replace (1 / 1000000000000) with (Rsqr (1 / 1000000)) in E3 by (unfold Rsqr; field).
    apply Rsqr_incrst_0 in E3; [|apply Hpos|lra].
    apply (Rmult_lt_compat_r (me_tol m)) in E3; [|exact Ht]. unfold Rdiv in E3 at 1. rewrite Rmult_assoc, Rinv_l, Rmult_1_r in E3 by lra.
    lra.
  - intros Ho. assert (E3 : err2 m p q F s' <= err2 m p q F s) by (destruct Ho as [Ho|[msg Ho]]; [apply E1; exact Ho|exact (E2 msg Ho)]).
    rewrite !Hsq in E3. apply Rsqr_incr_0 in E3; [|apply Hpos|apply Hpos].
    apply (Rmult_le_compat_r (me_tol m)) in E3; [|lra].
    unfold Rdiv in E3. rewrite !Rmult_assoc, Rinv_l, !Rmult_1_r in E3 by lra. exact E3.
Qed.
(** two parameters held in a pair, and a metric that looks at both *)
Definition pairParam1 {T} (i : T) : param T (T * T) := mkparam fst (fun x s => (x, snd s)) i.
Definition pairParam2 {T} (i : T) : param T (T * T) := mkparam snd (fun x s => (fst s, x)) i.
Definition pairMetric {T} (F : T -> T -> T) (target tol : T) : metric T (T * T) :=
  mkmetric (fun s => (Ok (F (fst s) (snd s)), s)) target tol.
Lemma C66_pair_example_fact : forall (F : R -> R -> R) (target tol i j : R),
  pure2 (pairMetric F target tol) (pairParam1 i) (pairParam2 j) F.
Proof. intros F target tol i j. unfold pure2. cbn. splits; try reflexivity. intros s. exists s. split; [reflexivity|split; reflexivity]. Qed.
Lemma C66_pair_run_fact : exists s' : float * float,
  fit [pairMetric PrimFloat.mul 6%float (dec 1 1000000)] [pairParam1 (dec 1 1000000000); pairParam2 (dec 1 1000000000)] (1, 2)%float = (Ok tt, s') /\
  (5.5 <? fst s' * snd s')%float = true /\ (fst s' * snd s' <? 6.5)%float = true /\ (1 <? fst s')%float = true.
Proof. eexists. split; [vm_compute; reflexivity|]. split; [|split]; vm_compute; reflexivity. Qed.

(** ** C81 *)
(** a polynomial set that differs from another at most in the constant COP coefficient of the point [i] *)
Definition sameBut {T} (i : nat) (s s' : list (@polyPt T)) : Prop :=
  length s' = length s /\
  forall j p, nth_error s j = Some p -> exists p', nth_error s' j = Some p' /\
    pp_T p' = pp_T p /\ pp_in p' = pp_in p /\ length (pp_cop p') = length (pp_cop p) /\ tl (pp_cop p') = tl (pp_cop p) /\
    (j <> i -> pp_cop p' = pp_cop p).
(** the compressor evaluates the polynomials of [s] *)
Definition evaluates {T} `{Num T} (w : hpwh T) (s : list (@polyPt T)) : Prop :=
  exists l h r, w_hs w = l ++ h :: r /\ Forall (fun x => h_type x = TResistance) l /\ h_type h = TCompressor /\
    forall sp ext src p, polyEval s ext src = Ok p -> h_eval h sp ext src = p.
(** a 24-hour test of a unit whose compressor evaluates the polynomials of [s] gives the summary [sm] *)
Definition tested {T} `{Num T} (k fuel : nat) c d (s : list (@polyPt T)) (sm : @summary T) : Prop :=
  exists w w', evaluates w s /\ run24hrTest k fuel c d w = (Ok sm, w').

Lemma sameBut_refl {T} i (s : list (@polyPt T)) : sameBut i s s.
Proof. split; [reflexivity|]. intros j p E. exists p. repeat (split; [first [exact E|reflexivity]|]). reflexivity. Qed.
Lemma sameBut_trans {T} i (a b c : list (@polyPt T)) : sameBut i a b -> sameBut i b c -> sameBut i a c.
Proof.
  intros [L1 H1] [L2 H2]. split; [congruence|]. intros j p E.
  destruct (H1 j p E) as (p1 & E1 & A1 & A2 & A3 & A4 & A5). destruct (H2 j p1 E1) as (p2 & E2 & B1 & B2 & B3 & B4 & B5).
  exists p2. split; [exact E2|]. split; [congruence|]. split; [congruence|]. split; [congruence|]. split; [congruence|].
  intros Hj. rewrite B5, A5 by exact Hj. reflexivity.
Qed.
Lemma nth_upd_same {A} : forall (l : list A) i v x, nth_error l i = Some x -> nth_error (upd l i v) i = Some v.
Proof. induction l as [|y l IH]; intros [|i] v x E; cbn in *; try discriminate; [reflexivity|]. eapply IH; exact E. Qed.
Lemma nth_upd_other {A} : forall (l : list A) i j v, i <> j -> nth_error (upd l i v) j = nth_error l j.
Proof. induction l as [|y l IH]; intros [|i] [|j] v E; cbn; try reflexivity; try congruence. apply IH. congruence. Qed.
Lemma upd_len {A} : forall (l : list A) i v, length (upd l i v) = length l.
Proof. induction l as [|y l IH]; intros [|i] v; cbn; try reflexivity. rewrite IH. reflexivity. Qed.
Lemma upd_same {A} : forall (l : list A) i x, nth_error l i = Some x -> upd l i x = l.
Proof. induction l as [|y l IH]; intros [|i] x E; cbn in *; try discriminate; [congruence|]. rewrite IH by exact E. reflexivity. Qed.
Lemma upd_upd {A} : forall (l : list A) i x y, upd (upd l i x) i y = upd l i y.
Proof. induction l as [|z l IH]; intros [|i] x y; cbn; try reflexivity. rewrite IH. reflexivity. Qed.
Lemma setCop0_sameBut {T} (s : list (@polyPt T)) i x : sameBut i s (setCop0 s i x).
Proof.
  unfold setCop0. destruct (nth_error s i) as [p|] eqn:E; [|apply sameBut_refl].
  split; [apply upd_len|]. intros j q Ej. destruct (Nat.eq_dec i j) as [<-|Hij].
  - rewrite Ej in E. injection E as <-. eexists. split; [eapply nth_upd_same; exact Ej|]. cbn.
    split; [reflexivity|]. split; [reflexivity|]. split; [apply upd_len|]. split; [destruct (pp_cop q); reflexivity|]. congruence.
  - exists q. split; [rewrite nth_upd_other by exact Hij; exact Ej|]. repeat (split; [reflexivity|]). reflexivity.
Qed.
Lemma setCop0_set {T} (s : list (@polyPt T)) i x y : setCop0 (setCop0 s i x) i y = setCop0 s i y.
Proof.
  unfold setCop0. destruct (nth_error s i) as [p|] eqn:E; [|rewrite E; reflexivity].
  rewrite (nth_upd_same _ _ _ _ E). cbn. rewrite !upd_upd. reflexivity.
Qed.
Lemma setCop0_id {T} (s : list (@polyPt T)) i x : cop0 s i = Some x -> setCop0 s i x = s.
Proof.
  unfold cop0, setCop0. destruct (nth_error s i) as [p|] eqn:E; [|reflexivity]. intros Ex.
  rewrite (upd_same _ _ _ Ex). apply upd_same. rewrite E. destruct p; reflexivity.
Qed.
Lemma cop0_set {T} (s : list (@polyPt T)) i x y : cop0 s i = Some y -> cop0 (setCop0 s i x) i = Some x.
Proof.
  unfold cop0, setCop0. destruct (nth_error s i) as [p|] eqn:E; [|discriminate]. intros Ey.
  rewrite (nth_upd_same _ _ _ _ E). cbn [pp_cop]. eapply nth_upd_same. exact Ey.
Qed.

(** a unit with a compressor evaluates the set once it is installed *)
Lemma firstComp_on {T} (f : hsrc T -> hsrc T) (Hf : forall h, h_type (f h) = h_type h) l :
  firstComp (onFirstComp f l) = match firstComp l with Some h => Some (f h) | None => None end.
Proof.
  induction l as [|h l IH]; [reflexivity|]. cbn. destruct (h_type h) eqn:E; cbn; rewrite ?Hf, ?E; [reflexivity|exact IH].
Qed.
Lemma firstComp_split {T} (l : list (hsrc T)) h : firstComp l = Some h ->
  exists a r, l = a ++ h :: r /\ Forall (fun x => h_type x = TResistance) a /\ h_type h = TCompressor.
Proof.
  induction l as [|x l IH]; [discriminate|]. cbn. destruct (h_type x) eqn:E; intros Eh.
  - injection Eh as <-. exists [], l. split; [reflexivity|]. split; [constructor|exact E].
  - destruct (IH Eh) as (a & r & -> & A & B). exists (x :: a), r. split; [reflexivity|]. split; [constructor; assumption|exact B].
Qed.
Lemma install_hs {T} `{Num T} (g : gen) : w_hs (ge_w (install g)) = onFirstComp (set_h_eval (polyFun (ge_set g))) (w_hs (ge_w g)).
Proof. reflexivity. Qed.
Lemma eval_type {T} (f : T -> T -> T -> perf T) (h : hsrc T) : h_type (set_h_eval f h) = h_type h.
Proof. reflexivity. Qed.
Lemma eval_eval {T} (f : T -> T -> T -> perf T) (h : hsrc T) : h_eval (set_h_eval f h) = f.
Proof. reflexivity. Qed.
Lemma evaluates_of {T} `{Num T} (w : hpwh T) s h : firstComp (w_hs w) = Some h -> h_eval h = polyFun s -> evaluates w s.
Proof.
  intros E1 E2. apply firstComp_split in E1. destruct E1 as (a & r & A & B & C). exists a, h, r.
  split; [exact A|]. split; [exact B|]. split; [exact C|]. intros sp ext src p Ep. rewrite E2. unfold polyFun. rewrite Ep. reflexivity.
Qed.
Lemma install_evaluates {T} `{Num T} (g : @gen T) : isComp (ge_w g) = true -> evaluates (ge_w (install g)) (ge_set g).
Proof.
  unfold isComp. destruct (firstComp (w_hs (ge_w g))) as [h|] eqn:E; [|discriminate]. intros _.
  apply (evaluates_of _ _ (set_h_eval (polyFun (ge_set g)) h)); [|apply eval_eval].
  rewrite install_hs, (firstComp_on _ (eval_type _)), E. reflexivity.
Qed.

(** the kinds of the heat sources do not change in a test *)
Definition sameTypes {T} (w w' : hpwh T) : Prop := map h_type (w_hs w') = map h_type (w_hs w).
Lemma isComp_types {T} `{Num T} (w w' : hpwh T) : sameTypes w w' -> isComp w' = isComp w.
Proof.
  unfold sameTypes, isComp. generalize (w_hs w) (w_hs w'). intros l. induction l as [|h l IH]; intros [|h' l'] E; cbn in *; try discriminate; [reflexivity|].
  injection E as E1 E2. rewrite E1. destruct (h_type h); [reflexivity|]. apply IH. exact E2.
Qed.
Lemma cframe_types {T} `{Num T} P (w w' : hpwh T) : cframe P w w' -> sameTypes w w'.
Proof.
  intros (HF & _). unfold sameTypes. induction HF as [|h h' l l' [HH _] HF IH]; [reflexivity|]. cbn. rewrite IH.
  rewrite (hframe_type _ _ HH). reflexivity.
Qed.
Lemma step_types {T} `{Num T} fuel x (w w' : hpwh T) : runOneStep fuel x w = (Ok tt, w') -> sameTypes w w'.
Proof.
  intros E. apply step_hs in E. destruct E as (w1 & w2 & a & HP & HC & E & _).
  pose proof (pres_Ok _ _ _ _ _ (control_cframe fuel (i_dr x) a) HC) as HF. apply cframe_types in HF.
  unfold sameTypes in *. rewrite E, map_map. transitivity (map h_type (w_hs w2)).
  { apply map_ext. intros h. unfold settleHS. destruct (h_type h) eqn:Eh; cbn; try exact Eh; try reflexivity. }
  rewrite HF, (preControl_hs _ _ _ _ _ HP), map_map. reflexivity.
Qed.
Lemma testStep_types {T} `{Num T} fuel c v dr (w w' : hpwh T) : testStep fuel c v dr w = (Ok tt, w') -> sameTypes w w'.
Proof.
  unfold testStep, runOneStepInlet. intros E. apply bind_inv in E. destruct E as ([] & w1 & E1 & E). apply modify_inv in E1.
  apply step_types in E. unfold sameTypes in *. rewrite E, E1. reflexivity.
Qed.
Lemma sameTypes_trans {T} (a b c : hpwh T) : sameTypes a b -> sameTypes b c -> sameTypes a c.
Proof. unfold sameTypes. congruence. Qed.
Lemma setSet_types {T} `{Num T} v (w w' : hpwh T) : setSetpoint v U_C w = (Ok tt, w') -> sameTypes w w'.
Proof.
  intros E. unfold setSetpoint in E. apply bind_inv in E. destruct E as (x & y & E1 & E). apply lift_inv in E1. destruct E1 as [-> E1].
  unfold setSetpointC in E. apply bind_inv in E. destruct E as (w0 & w1 & E0 & E). apply get_inv in E0. destruct E0 as [-> ->].
  apply bind_inv in E. destruct E as ([ok mx] & w1 & E0 & E). apply lift_inv in E0. destruct E0 as [-> _].
  destruct ok; [|discriminate]. apply modify_inv in E. rewrite E. reflexivity.
Qed.
Lemma setTest_types {T} `{Num T} (w w' : hpwh T) : setTestSetpoint w = (Ok tt, w') -> sameTypes w w'.
Proof.
  unfold setTestSetpoint. intros E. apply bind_inv in E. destruct E as (w0 & w1 & E0 & E). apply get_inv in E0. destruct E0 as [-> ->].
  apply bind_inv in E. destruct E as ([ok mx] & w1 & E0 & E). apply lift_inv in E0. destruct E0 as [-> _].
  destruct ok; [eapply setSet_types; exact E|]. apply bind_inv in E. destruct E as ([ok mx2] & w1 & E0 & E). apply lift_inv in E0. destruct E0 as [-> _].
  destruct ok; [eapply setSet_types; exact E|]. unfold when in E. apply ret_inv in E. destruct E as [-> _]. reflexivity.
Qed.
Lemma prepLoop_types {T} `{Num T} k fuel c flow : forall st dr (w w' : hpwh T), prepLoop k fuel c flow st dr w = (Ok tt, w') -> sameTypes w w'.
Proof.
  induction k as [|k IH]; intros st dr w w' E; cbn [prepLoop] in E; [discriminate|].
  apply bind_inv in E. destruct E as (w0 & w1 & E0 & E). apply get_inv in E0. destruct E0 as [-> ->].
  destruct (prepAdvance st dr (w_heating w)) as [[st' dr'] dn]. apply bind_inv in E. destruct E as ([] & w1 & E1 & E).
  apply testStep_types in E1. destruct dn; [apply ret_inv in E; destruct E as [-> _]; exact E1|]. apply IH in E. eapply sameTypes_trans; eassumption.
Qed.
Lemma idle_types {T} `{Num T} k fuel c : forall n on rows (w w' : hpwh T) m rows', idleLoop k fuel c n on rows w = (Ok (m, rows'), w') -> sameTypes w w'.
Proof.
  induction k as [|k IH]; intros n on rows w w' m rows' E; cbn [idleLoop] in E; destruct (Nat.ltb n 60 || on)%bool eqn:B; try discriminate.
  1,3: apply ret_inv in E; destruct E as [-> E]; reflexivity.
  apply bind_inv in E. destruct E as ([] & w1 & E1 & E).
  apply bind_inv in E. destruct E as (w2 & w3 & E0 & E). apply get_inv in E0. destruct E0 as [-> ->].
  apply bind_inv in E. destruct E as (r & w4 & E2 & E). apply lift_inv in E2. destruct E2 as [-> E2].
  apply testStep_types in E1. apply IH in E. eapply sameTypes_trans; eassumption.
Qed.
Lemma minute_types {T} `{Num T} fuel c initT t s (w w' : hpwh T) s' : minute24 fuel c initT t s w = (Ok s', w') -> sameTypes w w'.
Proof.
  unfold minute24. intros E.
  repeat first
    [ progress cbv zeta in E
    | match type of E with
      | bind get _ _ = _ => apply bind_inv in E; destruct E as (? & ? & Eg & E); apply get_inv in Eg; destruct Eg as [-> ->]
      | bind (lift _) _ _ = _ => apply bind_inv in E; destruct E as (? & ? & Eg & E); apply lift_inv in Eg; destruct Eg as [-> _]
      | bind (testStep _ _ _ _) _ _ = _ => apply bind_inv in E; destruct E as ([] & ? & Et & E); apply testStep_types in Et
      | ret _ _ = _ => apply ret_inv in E; destruct E as [-> _]
      | (let '(_, _) := ?x in _) _ = _ => destruct x
      end ].
  exact Et.
Qed.
Lemma fold_types {T} `{Num T} fuel c initT l : forall s (w w' : hpwh T) s', foldM l (minute24 fuel c initT) s w = (Ok s', w') -> sameTypes w w'.
Proof.
  induction l as [|t l IH]; intros s w w' s' E; cbn [foldM] in E; [apply ret_inv in E; destruct E as [-> _]; reflexivity|].
  apply bind_inv in E. destruct E as (s1 & w1 & E1 & E). apply minute_types in E1. apply IH in E. eapply sameTypes_trans; eassumption.
Qed.
Lemma run24_types {T} `{Num T} k fuel c d (w w' : hpwh T) s : run24hrTest k fuel c d w = (Ok s, w') -> sameTypes w w'.
Proof.
  unfold run24hrTest. intros E. apply bind_inv in E. destruct E as ([] & w1 & E1 & E). apply setTest_types in E1.
  apply bind_inv in E. destruct E as ([] & w2 & E2 & E). unfold prepareForTest in E2. apply bind_inv in E2. destruct E2 as (v & v' & E0 & E2). apply get_inv in E0. destruct E0 as [-> ->].
  apply prepLoop_types in E2. apply bind_inv in E. destruct E as ([n pre] & w3 & E3 & E). apply idle_types in E3.
  apply bind_inv in E. destruct E as (v & v' & E0 & E). apply get_inv in E0. destruct E0 as [-> ->].
  cbv zeta in E. apply bind_inv in E. destruct E as (te & w4 & E4 & E). apply fold_types in E4.
  apply bind_inv in E. destruct E as (v & v' & E0 & E). apply get_inv in E0. destruct E0 as [-> ->].
  apply lift_inv in E. destruct E as [-> _].
  eapply sameTypes_trans; [exact E1|]. eapply sameTypes_trans; [exact E2|]. eapply sameTypes_trans; [exact E3|exact E4].
Qed.

Lemma evalEF_inv {T} `{Num T} k fuel c d (g g' : @gen T) v : evalEF k fuel c d g = (Ok v, g') ->
  exists sm, run24hrTest k fuel c d (ge_w (install g)) = (Ok sm, ge_w g') /\ v = ts_EF sm /\ ge_last g' = Some sm /\ ge_set g' = ge_set g.
Proof.
  unfold evalEF. destruct (run24hrTest k fuel c d (ge_w (install g))) as [[sm|e|e|] w'] eqn:E; intros E1; try discriminate.
  injection E1 as <- <-. exists sm. split; [reflexivity|]. split; [reflexivity|]. split; reflexivity.
Qed.
Lemma install_types {T} `{Num T} (g : @gen T) : sameTypes (ge_w g) (ge_w (install g)).
Proof.
  unfold sameTypes. rewrite install_hs. induction (w_hs (ge_w g)) as [|h l IH]; [reflexivity|]. cbn [onFirstComp].
  destruct (h_type h) eqn:E; cbn [map]; [rewrite eval_type; reflexivity|]. rewrite IH. reflexivity.
Qed.
Lemma evalEF_tested {T} `{Num T} k fuel c d (g g' : @gen T) v : isComp (ge_w g) = true -> evalEF k fuel c d g = (Ok v, g') ->
  exists sm, tested k fuel c d (ge_set g) sm /\ v = ts_EF sm /\ ge_last g' = Some sm /\ ge_set g' = ge_set g /\ isComp (ge_w g') = true.
Proof.
  intros HC E. apply evalEF_inv in E. destruct E as (sm & E1 & E2 & E3 & E4). exists sm.
  split; [exists (ge_w (install g)), (ge_w g'); split; [apply install_evaluates; exact HC|exact E1]|].
  split; [exact E2|]. split; [exact E3|]. split; [exact E4|].
  rewrite (isComp_types _ _ (run24_types _ _ _ _ _ _ _ E1)). rewrite (isComp_types _ _ (install_types g)). exact HC.
Qed.

(** the steps of a fit of one parameter that reports no error *)
Lemma fitOne_ok {T S} `{Num T} (m : metric T S) (p : param T S) s s' :
  nleb (nofZ 0) (dec 1 1000000000000 : T) = true -> fit [m] [p] s = (Ok tt, s') ->
  exists f0 s0 f1 s1 cs,
    me_eval m s = (Ok f0, s0) /\ me_eval m (pa_set p (nadd (pa_get p s) (pa_incr p)) s0) = (Ok f1, s1) /\
    calls (fun x t => me_eval m (pa_set p x t)) (pa_set p (pa_get p s) s1) cs s' /\ (length cs <= 19)%nat /\
    exists x fx, In (x, fx) [(pa_get p s, f0); (nadd (pa_get p s) (pa_incr p), f1)] /\
      (near (me_target m) (dec 1 1000000000000) (dec 1 1000000000000) (snd (last cs (x, fx))) \/ length cs = 19%nat).
Proof.
  intros Htol E. unfold fit, fitOne in E.
  apply bind_inv in E. destruct E as (s0 & s2 & E0 & E). injection E0 as <- <-. cbv zeta in E.
  apply bind_inv in E. destruct E as (f0 & s0 & E0 & E).
  apply bind_inv in E. destruct E as (u & s2 & E1 & E). apply mod_inv in E1. subst s2.
  apply bind_inv in E. destruct E as (f1 & s1 & E1 & E).
  apply bind_inv in E. destruct E as (u1 & s2 & E2 & E). apply mod_inv in E2. subst s2.
  apply bind_inv in E. destruct E as ([[code x] fx] & s2 & E2 & E).
  destruct (Z.ltb code 0) eqn:Ec; [discriminate|]. apply retS_inv in E. destruct E as [-> _].
  apply C66_secant_fact in E2; [|exact Htol]. destruct E2 as (cs & Hc & Hl & Hx & Ho).
  exists f0, s0, f1, s1, cs. split; [exact E0|]. split; [exact E1|]. split; [|split; [exact Hl|]].
  { clear -Hc. revert Hc. generalize (pa_set p (pa_get p s) s1). intros t Hc. induction Hc; [constructor|].
    econstructor; [|exact IHHc]. match goal with H : single m p _ _ = _ |- _ => exact H end. }
  assert (exists a fa, In (a, fa) [(pa_get p s, f0); (nadd (pa_get p s) (pa_incr p), f1)] /\ (x, fx) = last cs (a, fa)) as (a & fa & Ha & Hx').
  { destruct Hx as [Hx|[Hx _]]; [exists (pa_get p s), f0|exists (nadd (pa_get p s) (pa_incr p)), f1]; (split; [cbn; auto|exact Hx]). }
  exists a, fa. split; [exact Ha|]. rewrite <- Hx'. cbn [snd].
  destruct Ho as [[Ho1 Ho2]|[[Ho1 Ho2]|(Ho1 & _)]]; [left; exact Ho2|right; exact Ho2|].
  exfalso. apply Z.ltb_ge in Ec. lia.
Qed.

(** What the evaluations of the fit leave: the set differs only in the one coefficient, and the kept
    summary is that of the last evaluation. *)
Lemma calls_gen {T} `{Num T} k fuel c d i : forall cs (g g' : @gen T),
  calls (fun x t => evalEF k fuel c d (pa_set (copParam i) x t)) g cs g' -> isComp (ge_w g) = true ->
  isComp (ge_w g') = true /\
  (cs = [] /\ g' = g \/
   exists tr x sm, map (fun p => (fst p, ts_EF (snd p))) (tr ++ [(x, sm)]) = cs /\
     Forall (fun p => tested k fuel c d (setCop0 (ge_set g) i (fst p)) (snd p)) (tr ++ [(x, sm)]) /\
     ge_set g' = setCop0 (ge_set g) i x /\ ge_last g' = Some sm).
Proof.
  intros cs g g' Hc. induction Hc as [g|g x v g1 cs g2 E Hc IH]; intros HC.
  - split; [exact HC|]. left. split; reflexivity.
  - assert (HC1 : isComp (ge_w (pa_set (copParam i) x g)) = true) by exact HC.
    apply (evalEF_tested k fuel c d _ _ _ HC1) in E. destruct E as (sm & H1 & H2 & H3 & H4 & H5).
    destruct (IH H5) as [H6 H7]. split; [exact H6|]. right.
    change (ge_set (pa_set (copParam i) x g)) with (setCop0 (ge_set g) i x) in *.
    destruct H7 as [[-> ->]|(tr & y & sm' & A1 & A2 & A3 & A4)].
    + exists [], x, sm. split; [cbn; rewrite H2; reflexivity|]. split; [constructor; [exact H1|constructor]|]. split; [exact H4|exact H3].
    + exists ((x, sm) :: tr), y, sm'. split; [cbn [app map fst snd]; rewrite A1, H2; reflexivity|].
      rewrite H4 in A2, A3. split; [|split; [rewrite A3; apply setCop0_set|exact A4]].
      cbn [app]. constructor; [exact H1|]. eapply Forall_impl; [|exact A2]. intros [z smz] Hz. cbn [fst snd] in *. rewrite setCop0_set in Hz. exact Hz.
Qed.

(** the set with the constant COP coefficient of the point [i] changed by [delta] *)
Definition shifted (i : nat) (delta : R) (s s' : list (@polyPt R)) : Prop :=
  sameBut i s s' /\ forall p p', nth_error s i = Some p -> nth_error s' i = Some p' -> hd 0 (pp_cop p') = hd 0 (pp_cop p) + delta.
Lemma setCop0_shifted (s : list (@polyPt R)) i x y : cop0 s i = Some y -> shifted i (x - y) s (setCop0 s i x).
Proof.
  intros E. split; [apply setCop0_sameBut|]. intros p p' E1 E2. unfold cop0 in E. unfold setCop0 in E2. rewrite E1 in E, E2.
  rewrite (nth_upd_same _ _ _ _ E1) in E2. injection E2 as <-. destruct (pp_cop p) as [|z l]; [discriminate|]. cbn in *. injection E as ->. ring.
Qed.
Lemma dec9 : (dec 1 1000000000 : R) = 1 / 1000000000.
Proof. reflexivity. Qed.
Lemma near12 (t v : R) : near t (dec 1 1000000000000) (dec 1 1000000000000) v -> Rabs (v - t) <= 1 / 1000000000000.
Proof. rewrite dec12. unfold near. num_simpl. rewrite !Rleb_true. intros [A B]. apply Rabs_le. lra. Qed.


Lemma genericEF_inv {T} `{Num T} k fuel target c d (g g' : @gen T) sm : makeGenericEF k fuel target c d g = (Ok sm, g') ->
  let i := getAmbientT_index (ge_set g) (tc_amb c) in
  exists y g1 h p1 p0, isComp (ge_w g) = true /\ cop0 (ge_set g) i = Some y /\
    fit [mkmetric (evalEF k fuel c d) target (dec 1 1000000)] [copParam i] (install g) = (Ok tt, g1) /\
    g' = install g1 /\ ge_last g1 = Some sm /\ firstComp (w_hs (ge_w g')) = Some h /\
    getPerformance (ge_w g') h (tc_amb c) (h_maxSet h) = Ok p1 /\ nltb (p_cop p1) (nofZ 0) = false /\
    getPerformance (ge_w g') h (tc_amb c) (nofZ 0) = Ok p0 /\ nltb (p_cop p0) (p_cop p1) = false.
Proof.
  intros E i. unfold makeGenericEF in E.
  apply bind_inv in E. destruct E as (s0 & s2 & E0 & E). injection E0 as <- <-.
  destruct (isComp (ge_w g)) eqn:HC; [|discriminate]. cbn [negb] in E.
  apply bind_inv in E. destruct E as (u & s2 & E1 & E). apply mod_inv in E1. subst s2.
  apply bind_inv in E. destruct E as (s0 & s2 & E0 & E). injection E0 as <- <-.
  cbv zeta in E. change (ge_set (install g)) with (ge_set g) in E. fold i in E.
  destruct (nth_error (ge_set g) i) as [p|] eqn:Ep; [|discriminate].
  destruct (pp_cop p) as [|y l] eqn:Ey; [discriminate|].
  apply bind_inv in E. destruct E as (u1 & g1 & E1 & E). destruct u1.
  apply bind_inv in E. destruct E as (u1 & s2 & E2 & E). apply mod_inv in E2. subst s2.
  apply bind_inv in E. destruct E as (s0 & s2 & E0 & E). injection E0 as <- <-.
  apply bind_inv in E. destruct E as (h & s2 & E2 & E). apply liftS_inv in E2. destruct E2 as [-> E2].
  destruct (firstComp (w_hs (ge_w (install g1)))) as [h'|] eqn:Eh; [|discriminate]. injection E2 as ->.
  apply bind_inv in E. destruct E as (p1 & s2 & E2 & E). apply liftS_inv in E2. destruct E2 as [-> E2].
  destruct (nltb (p_cop p1) (nofZ 0)) eqn:L1; [discriminate|].
  apply bind_inv in E. destruct E as (p0 & s2 & E3 & E). apply liftS_inv in E3. destruct E3 as [-> E3].
  destruct (nltb (p_cop p0) (p_cop p1)) eqn:L2; [discriminate|].
  change (ge_last (install g1)) with (ge_last g1) in E.
  destruct (ge_last g1) as [sm'|] eqn:Es; [|discriminate]. apply retS_inv in E. destruct E as [-> ->].
  exists y, g1, h, p1, p0. split; [reflexivity|]. split; [unfold cop0; rewrite Ep, Ey; reflexivity|].
  split; [exact E1|]. split; [reflexivity|]. split; [exact Es|]. split; [exact Eh|]. split; [exact E2|]. split; [exact L1|]. split; [exact E3|exact L2].
Qed.
Lemma install_set {T} `{Num T} (g : @gen T) : ge_set (install g) = ge_set g.
Proof. reflexivity. Qed.
Lemma map_last {A B} (f : A -> B) l x d : last (map f (l ++ [x])) d = f x.
Proof. rewrite map_app. cbn. apply last_last. Qed.

(** the set with the constant COP coefficient of the point [i] set to [x] *)
Definition withConst {T} (i : nat) (x : T) (s s' : list (@polyPt T)) : Prop :=
  sameBut i s s' /\ forall p', nth_error s' i = Some p' -> hd_error (pp_cop p') = Some x.
Lemma setCop0_const {T} (s : list (@polyPt T)) i x y : cop0 s i = Some y -> withConst i x s (setCop0 s i x).
Proof.
  intros E. split; [apply setCop0_sameBut|]. intros p' E2. unfold cop0 in E. unfold setCop0 in E2.
  destruct (nth_error s i) as [p|] eqn:E1; [|discriminate].
  rewrite (nth_upd_same _ _ _ _ E1) in E2. injection E2 as <-. destruct (pp_cop p) as [|z l]; [discriminate|]. reflexivity.
Qed.
Lemma const_shifted (s s' : list (@polyPt R)) i x y : withConst i y s s -> withConst i x s s' -> shifted i (x - y) s s'.
Proof.
  intros [_ Hy] [HS Hx]. split; [exact HS|]. intros p p' E E'. specialize (Hy p E). specialize (Hx p' E').
  destruct (pp_cop p); [discriminate|]. destruct (pp_cop p'); [discriminate|]. cbn in *. injection Hy as ->. injection Hx as ->. ring.
Qed.

Lemma C81_EF_any_fact : forall (T : Type) (N : Num T) k fuel target c d (g g' : @gen T) sm,
  let tol := dec 1 1000000000000 in
  nleb (nofZ 0) (tol : T) = true ->
  makeGenericEF k fuel target c d g = (Ok sm, g') ->
  let i := getAmbientT_index (ge_set g) (tc_amb c) in
  sameBut i (ge_set g) (ge_set g') /\ evaluates (ge_w g') (ge_set g') /\
  exists y trials, withConst i y (ge_set g) (ge_set g) /\ (length trials <= 19)%nat /\
    Forall (fun p => exists st, withConst i (fst p) (ge_set g) st /\ tested k fuel c d st (snd p)) trials /\
    ((exists init x, trials = init ++ [(x, sm)] /\ withConst i x (ge_set g) (ge_set g') /\ tested k fuel c d (ge_set g') sm /\
        (near target tol tol (ts_EF sm) \/ length trials = 19%nat)) \/
     (trials = [] /\ withConst i y (ge_set g) (ge_set g') /\ exists st sm0,
        withConst i (nadd y (dec 1 1000000000)) (ge_set g) st /\ tested k fuel c d st sm /\ tested k fuel c d (ge_set g) sm0 /\
        (near target tol tol (ts_EF sm0) \/ near target tol tol (ts_EF sm)))).
Proof.
  intros T N k fuel target c d g g' sm tol Htol E i. apply genericEF_inv in E. cbv zeta in E. fold i in E.
  destruct E as (y & g1 & h & p1 & p0 & HC & Hy & E & -> & Es & Eh & _).
  apply (fitOne_ok _ _ _ _ Htol) in E. destruct E as (f0 & s0 & f1 & s1 & cs & E0 & E1 & Hc & Hl & Ho).
  cbn [me_eval me_target] in E0, E1, Hc, Ho.
  assert (Hget : pa_get (copParam i) (install g) = y).
  { cbn [copParam pa_get]. rewrite install_set, Hy. reflexivity. }
  rewrite Hget in *. change (pa_incr (copParam i)) with (dec 1 1000000000 : T) in *.
  assert (HC0 : isComp (ge_w (install g)) = true) by (rewrite (isComp_types _ _ (install_types g)); exact HC).
  apply (evalEF_tested k fuel c d _ _ _ HC0) in E0. destruct E0 as (sm0 & T0 & V0 & L0 & S0 & C0).
  rewrite install_set in T0, S0.
  set (x1 := nadd y (dec 1 1000000000)) in *.
  assert (C0' : isComp (ge_w (pa_set (copParam i) x1 s0)) = true) by exact C0.
  apply (evalEF_tested k fuel c d _ _ _ C0') in E1. destruct E1 as (sm1 & T1 & V1 & L1 & S1 & C1).
  change (ge_set (pa_set (copParam i) x1 s0)) with (setCop0 (ge_set s0) i x1) in *. rewrite S0 in T1, S1.
  assert (C1' : isComp (ge_w (pa_set (copParam i) y s1)) = true) by exact C1.
  destruct (calls_gen k fuel c d i cs _ _ Hc C1') as [HCf Hf].
  change (ge_set (pa_set (copParam i) y s1)) with (setCop0 (ge_set s1) i y) in Hf.
  rewrite S1, setCop0_set, (setCop0_id _ _ _ Hy) in Hf.
  assert (Hev : evaluates (ge_w (install g1)) (ge_set (install g1))).
  { rewrite install_set. apply install_evaluates. exact HCf. }
  assert (Hself : withConst i y (ge_set g) (ge_set g)).
  { rewrite <- (setCop0_id _ _ _ Hy) at 2. apply (setCop0_const _ _ _ _ Hy). }
  destruct Hf as [[-> Hg1]|(tr & x & sm' & A1 & A2 & A3 & A4)].
  - assert (Hset : ge_set g1 = ge_set g).
    { rewrite Hg1. change (ge_set (pa_set (copParam i) y s1)) with (setCop0 (ge_set s1) i y).
      rewrite S1, setCop0_set. apply setCop0_id. exact Hy. }
    rewrite install_set in *. rewrite Hset in *. split; [apply sameBut_refl|]. split; [exact Hev|].
    exists y, []. split; [exact Hself|]. split; [cbn; lia|]. split; [constructor|]. right. split; [reflexivity|]. split; [exact Hself|].
    exists (setCop0 (ge_set g) i x1), sm0.
    assert (Hsm : sm = sm1). { rewrite Hg1 in Es. change (ge_last (pa_set (copParam i) y s1)) with (ge_last s1) in Es. congruence. }
    rewrite Hsm. split; [apply (setCop0_const _ _ _ _ Hy)|].
    split; [exact T1|]. split; [exact T0|].
    destruct Ho as (a & fa & Hi & [Hn|Hn]); [|discriminate]. cbn [last snd] in Hn.
    cbn in Hi. destruct Hi as [Hi|[Hi|[]]]; injection Hi as _ <-; [left; rewrite <- V0|right; rewrite <- V1]; exact Hn.
  - rewrite install_set in *. rewrite A4 in Es. injection Es as ->.
    split; [rewrite A3; apply setCop0_sameBut|]. split; [exact Hev|].
    exists y, (tr ++ [(x, sm)]). split; [exact Hself|].
    assert (Hlen : length (tr ++ [(x, sm)]) = length cs) by (rewrite <- A1, map_length; reflexivity).
    split; [rewrite Hlen; exact Hl|]. split.
    { eapply Forall_impl; [|exact A2]. intros [z smz] Hz. cbn [fst snd] in *.
      exists (setCop0 (ge_set g) i z). split; [apply (setCop0_const _ _ _ _ Hy)|exact Hz]. }
    left. exists tr, x.
    split; [reflexivity|]. split; [rewrite A3; apply (setCop0_const _ _ _ _ Hy)|].
    split; [rewrite A3; apply Forall_app in A2; destruct A2 as [_ A2]; inversion A2; subst; assumption|].
    rewrite Hlen. destruct Ho as (a & fa & _ & [Hn|Hn]); [left|right; exact Hn].
    rewrite <- A1, map_last in Hn. exact Hn.
Qed.

Lemma C81_EF_fact : forall k fuel target c d (g g' : @gen R) sm,
  makeGenericEF k fuel target c d g = (Ok sm, g') ->
  let i := getAmbientT_index (ge_set g) (tc_amb c) in
  sameBut i (ge_set g) (ge_set g') /\ evaluates (ge_w g') (ge_set g') /\
  ((exists delta, shifted i delta (ge_set g) (ge_set g') /\ tested k fuel c d (ge_set g') sm /\
      (Rabs (ts_EF sm - target) <= 1 / 1000000000000 \/
       exists trials, length trials = 19%nat /\ Forall (fun p => exists st, shifted i (fst p) (ge_set g) st /\ tested k fuel c d st (snd p)) trials)) \/
   (shifted i 0 (ge_set g) (ge_set g') /\ exists st sm0,
      shifted i (1 / 1000000000) (ge_set g) st /\ tested k fuel c d st sm /\ tested k fuel c d (ge_set g) sm0 /\
      (Rabs (ts_EF sm0 - target) <= 1 / 1000000000000 \/ Rabs (ts_EF sm - target) <= 1 / 1000000000000))).
Proof.
  intros k fuel target c d g g' sm E i.
  assert (Htol : nleb (nofZ 0) (dec 1 1000000000000 : R) = true).
  { rewrite dec12. num_simpl. apply Rleb_true. lra. }
  apply (C81_EF_any_fact R RNum k fuel target c d g g' sm Htol) in E. cbv zeta in E. fold i in E.
  destruct E as (HS & Hev & y & trials & Hy & Hl & Hf & Ho). split; [exact HS|]. split; [exact Hev|].
  destruct Ho as [(init & x & -> & Hx & Ht & Hn)|(-> & Hx & st & sm0 & H1 & H2 & H3 & H4)].
  - left. exists (x - y). split; [apply (const_shifted _ _ _ _ _ Hy Hx)|]. split; [exact Ht|].
    destruct Hn as [Hn|Hn]; [left; apply near12; exact Hn|right].
    exists (map (fun p => (fst p - y, snd p)) (init ++ [(x, sm)])). rewrite map_length. split; [exact Hn|].
    apply Forall_map. eapply Forall_impl; [|exact Hf]. intros [z smz] (st & A & B). cbn [fst snd] in *. exists st.
    split; [apply (const_shifted _ _ _ _ _ Hy A)|exact B].
  - right. split; [replace 0 with (y - y) by ring; apply (const_shifted _ _ _ _ _ Hy Hx)|]. exists st, sm0.
    split; [|split; [exact H2|split; [exact H3|]]].
    + replace (1 / 1000000000) with (nadd y (dec 1 1000000000) - y) by (rewrite dec9; num_simpl; ring).
      apply (const_shifted _ _ _ _ _ Hy H1).
    + destruct H4 as [H4|H4]; [left|right]; apply near12; exact H4.
Qed.

(** Run in double arithmetic: the example unit with the built-in Tier 3 set, fitted to a UEF of 3.  The
    coefficient of the middle point rises from 6.64 to 9.58. *)
Definition exSet : list (@polyPt float) :=
  [mkpoly (dec 50 1) [dec 187064124 1000000; dec 1939747 1000000; dec 0 1] [dec 522288834 100000000; dec (-243008) 10000000; dec 0 1];
   mkpoly (dec 675 10) [dec 1529195905 10000000; dec 2476598 1000000; dec 0 1] [dec 6643934986 1000000000; dec (-32373288) 1000000000; dec 0 1];
   mkpoly (dec 95 1) [dec 99263895 1000000; dec 3320221 1000000; dec 0 1] [dec 887700829 100000000; dec (-450586) 10000000; dec 0 1]].
Definition exGen : @gen float := mkgen (exUnit (T:=float) (map fofZ [50; 50; 50; 50]%Z)) exSet None.
Definition exFits (sm : @summary float) (g : @gen float) : bool :=
  (nleb (ts_EF sm) (nadd (dec 3 1) (dec 1 1000000000000)) && nleb (nsub (dec 3 1) (dec 1 1000000000000)) (ts_EF sm) &&
   match cop0 (ge_set g) 1 with Some x => nleb (dec 958 100) x && nleb x (dec 959 100) | None => false end)%bool.
Lemma ok_check {S A} (r : outc A * S) (chk : A -> S -> bool) :
  match r with (Ok a, s) => chk a s | _ => false end = true -> exists a s, r = (Ok a, s) /\ chk a s = true.
Proof. destruct r as [[a| | |] s]; try discriminate. intros E. exists a, s. split; [reflexivity|exact E]. Qed.
(** what makeGenericUEF does after its call of makeGenericEF, with the check of the example of C82 *)
Definition exUEF_fits (sm : @summary float) (g' : @gen float) : bool :=
  (exFits sm g' && match cop0 (ge_set g') 0 with Some x => nleb (dec 816 100) x && nleb x (dec 817 100) | None => false end)%bool.
Definition exUEF_tail (s : @summary float) : M (@gen float) (@summary float) :=
  bind get (fun g =>
  match cop0 (ge_set g) (getAmbientT_index (ge_set exGen) (tc_amb conf_UEF)) with
  | None => undef "perfPolySet[i].COP_coeffs[0]"
  | Some now =>
      bind (lift (shiftOthers (ge_set g) (getAmbientT_index (ge_set exGen) (tc_amb conf_UEF)) (nsub now (dec 6643934986 1000000000)))) (fun st =>
      bind (modify (withSet st)) (fun _ => bind (modify install) (fun _ => ret s)))
  end).
Lemma exEF_run : exists sm g', makeGenericEF 1000 100 (dec 3 1) conf_UEF VerySmall exGen = (Ok sm, g') /\
  (exFits sm g' && match exUEF_tail sm g' with (Ok sm2, g2) => exUEF_fits sm2 g2 | _ => false end)%bool = true.
Proof.
  apply (ok_check _ (fun sm g' => (exFits sm g' && match exUEF_tail sm g' with (Ok sm2, g2) => exUEF_fits sm2 g2 | _ => false end)%bool)).
  vm_compute. reflexivity.
Qed.
Lemma C81_example_fact : exists sm g', makeGenericEF 1000 100 (dec 3 1) conf_UEF VerySmall exGen = (Ok sm, g') /\ exFits sm g' = true.
Proof. destruct exEF_run as (sm & g' & E & H0). apply andb_true_iff in H0. exists sm, g'. split; [exact E|apply H0]. Qed.
Lemma C81_index_fact : getAmbientT_index (ge_set exGen) (tc_amb conf_UEF) = 1%nat /\ nleb (nofZ 0) (dec 1 1000000000000 : float) = true.
Proof. split; vm_compute; reflexivity. Qed.

Lemma C81_cop_fact : forall k fuel target c d (g g' : @gen R) sm,
  makeGenericEF k fuel target c d g = (Ok sm, g') ->
  exists l h r p1 p0, w_hs (ge_w g') = l ++ h :: r /\ Forall (fun x => h_type x = TResistance) l /\ h_type h = TCompressor /\
    getPerformance (ge_w g') h (tc_amb c) (h_maxSet h) = Ok p1 /\ getPerformance (ge_w g') h (tc_amb c) 0 = Ok p0 /\
    0 <= p_cop p1 <= p_cop p0.
Proof.
  intros k fuel target c d g g' sm E. apply genericEF_inv in E. cbv zeta in E.
  destruct E as (y & g1 & h & p1 & p0 & _ & _ & _ & _ & _ & Eh & E1 & L1 & E0 & L0).
  apply firstComp_split in Eh. destruct Eh as (l & r & A & B & C). exists l, h, r, p1, p0.
  split; [exact A|]. split; [exact B|]. split; [exact C|]. split; [exact E1|]. split; [exact E0|].
  num_simpl. apply Rltb_false in L1. apply Rltb_false in L0. lra.
Qed.

(** ** C82 *)
(** every point's constant COP coefficient is changed by [delta] and nothing else is *)
Definition allShifted (delta : R) (s s' : list (@polyPt R)) : Prop :=
  length s' = length s /\
  forall j p, nth_error s j = Some p -> exists p', nth_error s' j = Some p' /\
    pp_T p' = pp_T p /\ pp_in p' = pp_in p /\ pp_cop p <> [] /\ length (pp_cop p') = length (pp_cop p) /\ tl (pp_cop p') = tl (pp_cop p) /\
    hd 0 (pp_cop p') = hd 0 (pp_cop p) + delta.

Lemma shiftOthers_fold (i : nat) (delta : R) : forall n a (s s' : list (@polyPt R)),
  fold_left (fun o j => obind o (fun s => if Nat.eqb j i then Ok s
        else match cop0 s j with
             | Some x => Ok (setCop0 s j (nadd x delta))
             | None => UB "COP_coeffs[0]"
             end)) (seq a n) (Ok s) = Ok s' ->
  length s' = length s /\
  forall j p, nth_error s j = Some p -> exists p', nth_error s' j = Some p' /\ pp_T p' = pp_T p /\ pp_in p' = pp_in p /\
    ((j = i \/ (j < a)%nat \/ (a + n <= j)%nat) -> p' = p) /\
    ((j <> i /\ (a <= j < a + n)%nat) -> pp_cop p <> [] /\ pp_cop p' = (hd 0 (pp_cop p) + delta) :: tl (pp_cop p)).
Proof.
  induction n as [|n IH]; intros a s s' E.
  { cbn in E. injection E as <-. split; [reflexivity|]. intros j p Ej. exists p. split; [exact Ej|]. split; [reflexivity|]. split; [reflexivity|].
    split; [intros _; reflexivity|]. intros [_ Hj]. lia. }
  cbn [seq fold_left] in E. cbn [obind] in E. destruct (Nat.eqb a i) eqn:Ea.
  - apply Nat.eqb_eq in Ea. subst a. apply IH in E. destruct E as [L E]. split; [exact L|]. intros j p Ej.
    destruct (E j p Ej) as (p' & A1 & A2 & A3 & A4 & A5). exists p'. split; [exact A1|]. split; [exact A2|]. split; [exact A3|].
    split; [intros Hj; apply A4; lia|intros Hj; apply A5; lia].
  - apply Nat.eqb_neq in Ea. destruct (cop0 s a) as [x|] eqn:Ex.
    + apply IH in E. destruct E as [L E].
      unfold cop0 in Ex. destruct (nth_error s a) as [q|] eqn:Eq; [|discriminate].
      assert (Hset : setCop0 s a (nadd x delta) = upd s a (mkpoly (pp_T q) (pp_in q) (upd (pp_cop q) 0 (nadd x delta)))).
      { unfold setCop0. rewrite Eq. reflexivity. }
      rewrite Hset in L, E. rewrite upd_len in L. split; [exact L|]. intros j p Ej.
      destruct (Nat.eq_dec a j) as [<-|Hj].
      * rewrite Eq in Ej. injection Ej as ->. destruct (E a _ (nth_upd_same _ _ _ _ Eq)) as (p' & A1 & A2 & A3 & A4 & A5).
        rewrite A4 in * by lia. eexists. split; [exact A1|]. split; [reflexivity|]. split; [reflexivity|].
        split; [intros Hj; lia|]. intros _. cbn [pp_cop]. destruct (pp_cop p) as [|z l]; [discriminate|]. cbn in *. injection Ex as ->.
        split; [discriminate|reflexivity].
      * rewrite <- (nth_upd_other s a j (mkpoly (pp_T q) (pp_in q) (upd (pp_cop q) 0 (nadd x delta))) Hj) in Ej.
        destruct (E j p Ej) as (p' & A1 & A2 & A3 & A4 & A5). exists p'. split; [exact A1|]. split; [exact A2|]. split; [exact A3|].
        split; [intros Hk; apply A4; lia|intros Hk; apply A5; lia].
    + exfalso. clear -E. cbn in E. revert E. generalize (seq (S a) n). intros l. induction l; cbn; [discriminate|exact IHl].
Qed.

Lemma genericUEF_inv k fuel target d (g g' : @gen R) sm : makeGenericUEF k fuel target d g = (Ok sm, g') ->
  let i := getAmbientT_index (ge_set g) (tc_amb conf_UEF) in
  exists g1 y z st, makeGenericEF k fuel target conf_UEF d g = (Ok sm, g1) /\ cop0 (ge_set g) i = Some y /\ cop0 (ge_set g1) i = Some z /\
    shiftOthers (ge_set g1) i (z - y) = Ok st /\ g' = install (withSet st g1).
Proof.
  intros E i. unfold makeGenericUEF in E.
  apply bind_inv in E. destruct E as (s0 & s2 & E0 & E). injection E0 as <- <-.
  destruct (negb (isComp (ge_w g))); [discriminate|]. cbv zeta in E. fold i in E.
  destruct (cop0 (ge_set g) i) as [y|] eqn:Ey; [|discriminate].
  apply bind_inv in E. destruct E as (sm' & g1 & E1 & E).
  apply bind_inv in E. destruct E as (s0 & s2 & E0 & E). injection E0 as <- <-.
  destruct (cop0 (ge_set g1) i) as [z|] eqn:Ez; [|discriminate].
  apply bind_inv in E. destruct E as (st & s2 & E2 & E). apply liftS_inv in E2. destruct E2 as [-> E2].
  apply bind_inv in E. destruct E as (u & s2 & E3 & E). apply mod_inv in E3. subst s2.
  apply bind_inv in E. destruct E as (u1 & s2 & E3 & E). apply mod_inv in E3. subst s2.
  apply retS_inv in E. destruct E as [-> ->]. exists g1, y, z, st.
  split; [exact E1|]. split; [reflexivity|]. split; [exact Ez|]. split; [exact E2|reflexivity].
Qed.

Lemma sameBut_isComp k fuel target c d (g g' : @gen R) sm : makeGenericEF k fuel target c d g = (Ok sm, g') -> isComp (ge_w g') = true.
Proof.
  intros E. apply genericEF_inv in E. cbv zeta in E. destruct E as (y & g1 & h & p1 & p0 & _ & _ & _ & _ & _ & Eh & _).
  unfold isComp. rewrite Eh. reflexivity.
Qed.

Lemma C82_UEF_fact : forall k fuel target d (g g' : @gen R) sm,
  makeGenericUEF k fuel target d g = (Ok sm, g') ->
  let i := getAmbientT_index (ge_set g) (tc_amb conf_UEF) in
  exists delta, allShifted delta (ge_set g) (ge_set g') /\ evaluates (ge_w g') (ge_set g') /\
    exists e st, shifted i e (ge_set g) st /\ tested k fuel conf_UEF d st sm /\ (e = delta \/ delta = 0 /\ e = 1 / 1000000000).
Proof.
  intros k fuel target d g g' sm E i. apply genericUEF_inv in E. cbv zeta in E. fold i in E.
  destruct E as (g1 & y & z & st & E1 & Ey & Ez & E2 & ->).
  pose proof (sameBut_isComp _ _ _ _ _ _ _ _ E1) as HC.
  apply C81_EF_fact in E1. cbv zeta in E1. fold i in E1. destruct E1 as (HS & _ & Ho).
  assert (Hshift : shifted i (z - y) (ge_set g) (ge_set g1)).
  { split; [exact HS|]. intros p p' Ep Ep'. unfold cop0 in Ey, Ez. rewrite Ep in Ey. rewrite Ep' in Ez.
    destruct (pp_cop p); [discriminate|]. destruct (pp_cop p'); [discriminate|]. cbn in *. injection Ey as ->. injection Ez as ->. ring. }
  exists (z - y). split; [|split].
  - rewrite install_set. cbn [withSet ge_set].
    unfold shiftOthers in E2. apply shiftOthers_fold in E2. destruct E2 as [L E2]. destruct HS as [L1 HS].
    split; [congruence|]. intros j p Ej. destruct (HS j p Ej) as (p1 & F1 & F2 & F3 & F4 & F5 & F6).
    destruct (E2 j p1 F1) as (p2 & G1 & G2 & G3 & G4 & G5).
    exists p2. split; [exact G1|]. split; [congruence|]. split; [congruence|].
    destruct (Nat.eq_dec j i) as [->|Hj].
    + rewrite G4 in * by (left; reflexivity). destruct Hshift as [_ Hsh]. specialize (Hsh p p1 Ej F1).
      unfold cop0 in Ey. rewrite Ej in Ey. split; [destruct (pp_cop p); discriminate|]. split; [exact F4|]. split; [exact F5|exact Hsh].
    + assert (Hjl : (0 <= j < 0 + length (ge_set g1))%nat).
      { split; [lia|]. cbn. apply nth_error_Some. rewrite F1. discriminate. }
      destruct (G5 (conj Hj Hjl)) as [G6 G7]. rewrite F6 in * by exact Hj. split; [exact G6|]. rewrite G7.
      destruct (pp_cop p) as [|a l]; [contradiction|]. cbn. split; [reflexivity|]. split; reflexivity.
  - rewrite install_set. apply install_evaluates. exact HC.
  - destruct Ho as [(delta & Hs & Ht & _)|(Hsame & st' & sm0 & Hs & Ht & _)].
    + exists delta, (ge_set g1). split; [exact Hs|]. split; [exact Ht|]. left.
      destruct Hs as [_ Hs]. destruct Hshift as [_ Hsh].
      unfold cop0 in Ey, Ez. destruct (nth_error (ge_set g) i) as [p|] eqn:Ep; [|discriminate].
      destruct (nth_error (ge_set g1) i) as [p'|] eqn:Ep'; [|discriminate].
      specialize (Hs p p' eq_refl eq_refl). specialize (Hsh p p' eq_refl eq_refl). lra.
    + exists (1 / 1000000000), st'. split; [exact Hs|]. split; [exact Ht|]. right. split; [|reflexivity].
      destruct Hsame as [_ Hs0]. destruct Hshift as [_ Hsh].
      unfold cop0 in Ey, Ez. destruct (nth_error (ge_set g) i) as [p|] eqn:Ep; [|discriminate].
      destruct (nth_error (ge_set g1) i) as [p'|] eqn:Ep'; [|discriminate].
      specialize (Hs0 p p' eq_refl eq_refl). specialize (Hsh p p' eq_refl eq_refl). lra.
Qed.

(** points at 50, 67.5 and 95 F, as in the built-in sets *)
Definition threePts (s : list (@polyPt R)) : Prop := exists a b c, s = [a; b; c] /\ pp_T a = 50 /\ pp_T b = 135 / 2 /\ pp_T c = 95.
Lemma toF (x : R) : C_TO_F (F_TO_C x) = x.
Proof. unfold C_TO_F, F_TO_C, offsetF, FperC, dec. num_simpl. unfold dec. num_simpl. field. Qed.
Lemma conf_amb : tc_amb (conf_E50 (T:=R)) = F_TO_C 50 /\ tc_amb (conf_UEF (T:=R)) = F_TO_C (135 / 2) /\ tc_amb (conf_E95 (T:=R)) = F_TO_C 95.
Proof. unfold conf_E50, conf_UEF, conf_E95, dec. cbn [tc_amb]. num_simpl. split; [reflexivity|]. split; [f_equal; lra|reflexivity]. Qed.
Ltac rl := repeat match goal with
  | |- context [Rltb ?a ?b] =>
      first [replace (Rltb a b) with true by (symmetry; apply Rltb_true; lra)
            |replace (Rltb a b) with false by (symmetry; apply Rltb_false; lra)]
  end.
Lemma three_index (s : list (@polyPt R)) : threePts s ->
  getAmbientT_index s (tc_amb conf_E50) = 0%nat /\ getAmbientT_index s (tc_amb conf_UEF) = 1%nat /\ getAmbientT_index s (tc_amb conf_E95) = 2%nat.
Proof.
  intros (a & b & c & -> & Ha & Hb & Hc). destruct conf_amb as (-> & -> & ->).
  unfold getAmbientT_index. rewrite !toF. cbn [ambLoop]. rewrite Ha, Hb, Hc. num_simpl.
  split; [|split]; rl; cbn [Nat.ltb Nat.leb length andb nth_error]; unfold dec; num_simpl; rewrite ?Ha, ?Hb, ?Hc; rl; reflexivity.
Qed.
(** the set's performance at a point's own temperature depends on this point alone *)
Lemma three_at (a b c a' b' c' : @polyPt R) i src : pp_T a = 50 -> pp_T b = 135 / 2 -> pp_T c = 95 -> pp_T a' = 50 -> pp_T b' = 135 / 2 -> pp_T c' = 95 ->
  nth_error [a; b; c] i = nth_error [a'; b'; c'] i ->
  Forall (fun p => (3 <= length (pp_cop p))%nat /\ (3 <= length (pp_in p))%nat) [a; b; c; a'; b'; c'] ->
  forall ext, ext = match i with 0 => F_TO_C 50 | 1 => F_TO_C (135 / 2) | _ => F_TO_C 95 end ->
  (i < 3)%nat -> polyEval [a; b; c] ext src = polyEval [a'; b'; c'] ext src.
Proof.
  intros Ha Hb Hc Ha' Hb' Hc' Hi HL ext Hext Hlt.
  assert (Q : forall (p : @polyPt R) x, (3 <= length (pp_cop p))%nat /\ (3 <= length (pp_in p))%nat ->
              exists u v, quadratic (pp_cop p) x = Ok u /\ quadratic (pp_in p) x = Ok v).
  { intros p x [L1 L2]. destruct (pp_cop p) as [|? [|? [|? ?]]]; cbn in L1; try lia. destruct (pp_in p) as [|? [|? [|? ?]]]; cbn in L2; try lia.
    eexists. eexists. split; reflexivity. }
  inversion HL as [|? ? La HL1]; subst. inversion HL1 as [|? ? Lb HL2]; subst. inversion HL2 as [|? ? Lc HL3]; subst.
  inversion HL3 as [|? ? La' HL4]; subst. inversion HL4 as [|? ? Lb' HL5]; subst. inversion HL5 as [|? ? Lc' HL6]; subst. clear HL HL1 HL2 HL3 HL4 HL5 HL6.
  set (x := C_TO_F src).
  destruct (Q a x La) as (ua & va & Qa1 & Qa2). destruct (Q b x Lb) as (ub & vb & Qb1 & Qb2). destruct (Q c x Lc) as (uc & vc & Qc1 & Qc2).
  destruct (Q a' x La') as (ua' & va' & Qa1' & Qa2'). destruct (Q b' x Lb') as (ub' & vb' & Qb1' & Qb2'). destruct (Q c' x Lc') as (uc' & vc' & Qc1' & Qc2').
  unfold polyEval. fold x. destruct i as [|[|[|]]]; [| | |lia]; rewrite !toF; cbn [evalLoop length]; rewrite ?Ha, ?Hb, ?Hc, ?Ha', ?Hb', ?Hc'; num_simpl;
    injection Hi as Hi.
  - subst a'. rl. cbn [Nat.eqb Nat.sub atPoint nth_error obind]. rewrite Qa1, Qb1, Qb1', Qa2, Qb2, Qb2'. cbn [obind]. rewrite Ha, Hb, Hb'. 
    destruct (negb (Reqb' (135 / 2 - 50) 0)); [|reflexivity]. unfold linearInterp. num_simpl.
    rewrite Qa1 in Qa1'. injection Qa1' as <-. rewrite Qa2 in Qa2'. injection Qa2' as <-. do 2 f_equal; field.
  - subst b'. rl. cbn [Nat.eqb Nat.sub atPoint nth_error obind]. rewrite Qb1, Qc1, Qc1', Qb2, Qc2, Qc2'. cbn [obind]. rewrite Hb, Hc, Hc'.
    destruct (negb (Reqb' (95 - 135 / 2) 0)); [|reflexivity]. unfold linearInterp. num_simpl. do 2 f_equal; field.
  - subst c'. rl. cbn [Nat.eqb Nat.sub atPoint nth_error obind]. rewrite Qb1, Qb1', Qc1, Qb2, Qb2', Qc2. cbn [obind]. rewrite Hb, Hb', Hc.
    destruct (negb (Reqb' (95 - 135 / 2) 0)); [|reflexivity]. unfold linearInterp. num_simpl. do 2 f_equal; field.
Qed.

(** points at 50, 67.5 and 95 F with quadratics, as in the built-in sets *)
Definition quadPts (s : list (@polyPt R)) : Prop :=
  threePts s /\ Forall (fun p => (3 <= length (pp_cop p))%nat /\ (3 <= length (pp_in p))%nat) s.
Lemma same_quad (s s' : list (@polyPt R)) : quadPts s -> length s' = length s ->
  (forall j p, nth_error s j = Some p -> exists p', nth_error s' j = Some p' /\ pp_T p' = pp_T p /\ pp_in p' = pp_in p /\ length (pp_cop p') = length (pp_cop p)) ->
  quadPts s'.
Proof.
  intros [(a & b & c & -> & Ha & Hb & Hc) HF] L H0.
  destruct s' as [|a' [|b' [|c' [|? ?]]]]; try discriminate.
  destruct (H0 0%nat a eq_refl) as (p0 & E0 & A1 & A2 & A3). destruct (H0 1%nat b eq_refl) as (p1 & E1 & B1 & B2 & B3).
  destruct (H0 2%nat c eq_refl) as (p2 & E2 & C1 & C2 & C3). cbn in E0, E1, E2. injection E0 as <-. injection E1 as <-. injection E2 as <-.
  inversion HF as [|? ? La HF1]; subst. inversion HF1 as [|? ? Lb HF2]; subst. inversion HF2 as [|? ? Lc HF3]; subst.
  split; [exists a', b', c'; split; [reflexivity|]; split; [congruence|]; split; congruence|].
  constructor; [rewrite A2, A3; exact La|]. constructor; [rewrite B2, B3; exact Lb|]. constructor; [rewrite C2, C3; exact Lc|]. constructor.
Qed.
Lemma sameBut_quad i (s s' : list (@polyPt R)) : quadPts s -> sameBut i s s' -> quadPts s'.
Proof.
  intros HQ [L H0]. apply (same_quad s s' HQ L). intros j p E. destruct (H0 j p E) as (p' & A1 & A2 & A3 & A4 & _).
  exists p'. split; [exact A1|]. split; [exact A2|]. split; [exact A3|exact A4].
Qed.
Lemma quad_at (s s' : list (@polyPt R)) i src : quadPts s -> quadPts s' -> nth_error s i = nth_error s' i -> (i < 3)%nat ->
  forall ext, ext = match i with 0 => F_TO_C 50 | 1 => F_TO_C (135 / 2) | _ => F_TO_C 95 end ->
  polyEval s ext src = polyEval s' ext src.
Proof.
  intros [(a & b & c & -> & Ha & Hb & Hc) HF] [(a' & b' & c' & -> & Ha' & Hb' & Hc') HF'] Hi Hlt ext Hext.
  apply (three_at a b c a' b' c' i src); auto. change ([a; b; c; a'; b'; c']) with ([a; b; c] ++ [a'; b'; c']). apply Forall_app. split; assumption.
Qed.
Lemma sameBut_nth i j (s s' : list (@polyPt R)) : sameBut i s s' -> j <> i -> nth_error s' j = nth_error s j.
Proof.
  intros [L H0] Hj. destruct (nth_error s j) as [p|] eqn:E.
  - destruct (H0 j p E) as (p' & A1 & A2 & A3 & _ & _ & A4). rewrite A1. f_equal. destruct p, p'. cbn in *. subst. rewrite (A4 Hj). reflexivity.
  - apply nth_error_None. apply nth_error_None in E. lia.
Qed.

Lemma C82_UEF_ambient_fact : forall k fuel target d (g g' : @gen R) sm,
  makeGenericUEF k fuel target d g = (Ok sm, g') -> quadPts (ge_set g) ->
  exists st, (tested k fuel conf_UEF d st sm /\ (forall src, polyEval (ge_set g') (tc_amb conf_UEF) src = polyEval st (tc_amb conf_UEF) src)) \/
             (allShifted 0 (ge_set g) (ge_set g') /\ shifted 1 (1 / 1000000000) (ge_set g) st /\ tested k fuel conf_UEF d st sm).
Proof.
  intros k fuel target d g g' sm E HQ. pose proof (proj1 HQ) as H3. destruct (three_index _ H3) as (_ & I1 & _).
  apply C82_UEF_fact in E. cbv zeta in E. rewrite I1 in E. destruct E as (delta & HA & _ & e & st & Hs & Ht & He). exists st.
  destruct He as [->|[-> ->]]; [left|right; split; [exact HA|split; assumption]]. split; [exact Ht|]. intros src.
  assert (HQst : quadPts st) by (eapply sameBut_quad; [exact HQ|exact (proj1 Hs)]).
  assert (HQ' : quadPts (ge_set g')).
  { destruct HA as [L HA]. apply (same_quad _ _ HQ L). intros j p Ej. destruct (HA j p Ej) as (p' & A1 & A2 & A3 & _ & A4 & _).
    exists p'. split; [exact A1|]. split; [exact A2|]. split; [exact A3|exact A4]. }
  apply (quad_at _ _ 1 src HQ' HQst); [|lia|apply conf_amb].
  destruct Hs as [[L HS] Hd]. destruct HA as [_ HA].
  destruct (nth_error (ge_set g) 1) as [p|] eqn:Ep.
  - destruct (HA 1%nat p Ep) as (p1 & A1 & A2 & A3 & A4 & A5 & A6 & A7). destruct (HS 1%nat p Ep) as (p2 & B1 & B2 & B3 & B4 & B5 & _).
    specialize (Hd p p2 eq_refl B1). rewrite A1, B1. f_equal.
    assert (HC : pp_cop p1 = pp_cop p2).
    { destruct (pp_cop p1) as [|u l], (pp_cop p2) as [|v l'], (pp_cop p); cbn in *; try discriminate; try contradiction. congruence. }
    destruct p1, p2. cbn in *. congruence.
  - exfalso. destruct H3 as (a & b & c & E3 & _). rewrite E3 in Ep. discriminate.
Qed.

Lemma C82_example_fact : exists sm g', makeGenericUEF 1000 100 (dec 3 1) VerySmall exGen = (Ok sm, g') /\
  (exFits sm g' && match cop0 (ge_set g') 0 with Some x => nleb (dec 816 100) x && nleb x (dec 817 100) | None => false end)%bool = true.
Proof.
  destruct exEF_run as (sm & g' & E & H0). apply andb_true_iff in H0. destruct H0 as [_ H0].
  destruct (ok_check (exUEF_tail sm g') exUEF_fits H0) as (sm2 & g2 & E2 & H2). exists sm2, g2. split; [|exact H2].
  rewrite <- E2. unfold makeGenericUEF, exUEF_tail. unfold bind at 1, get at 1. cbv beta iota.
  assert (Hc : isComp (ge_w exGen) = true) by reflexivity. rewrite Hc. cbv beta iota delta [negb].
  assert (H6 : cop0 (ge_set exGen) (getAmbientT_index (ge_set exGen) (tc_amb conf_UEF)) = Some (dec 6643934986 1000000000)) by (vm_compute; reflexivity).
  rewrite H6. unfold bind at 1. rewrite E. reflexivity.
Qed.

(** ** C83 *)
Lemma C83_three_fact : forall k fuel e50 uef e95 d (g g' : @gen R),
  makeGenericE50_UEF_E95 k fuel e50 uef e95 d g = (Ok tt, g') -> quadPts (ge_set g) ->
  exists g1 g2 sm1 sm2 sm3,
    makeGenericEF k fuel e50 conf_E50 d g = (Ok sm1, g1) /\ makeGenericEF k fuel uef conf_UEF d g1 = (Ok sm2, g2) /\
    makeGenericEF k fuel e95 conf_E95 d g2 = (Ok sm3, g') /\
    sameBut 0 (ge_set g) (ge_set g1) /\ sameBut 1 (ge_set g1) (ge_set g2) /\ sameBut 2 (ge_set g2) (ge_set g') /\
    evaluates (ge_w g') (ge_set g') /\
    (forall src, polyEval (ge_set g') (tc_amb conf_E50) src = polyEval (ge_set g1) (tc_amb conf_E50) src) /\
    (forall src, polyEval (ge_set g') (tc_amb conf_UEF) src = polyEval (ge_set g2) (tc_amb conf_UEF) src).
Proof.
  intros k fuel e50 uef e95 d g g' E HQ. unfold makeGenericE50_UEF_E95 in E.
  apply bind_inv in E. destruct E as (sm1 & g1 & E1 & E).
  apply bind_inv in E. destruct E as (sm2 & g2 & E2 & E).
  apply bind_inv in E. destruct E as (sm3 & g3 & E3 & E). apply retS_inv in E. destruct E as [-> _].
  exists g1, g2, sm1, sm2, sm3. split; [exact E1|]. split; [exact E2|]. split; [exact E3|].
  apply C81_EF_fact in E1. apply C81_EF_fact in E2. apply C81_EF_fact in E3. cbv zeta in *.
  rewrite (proj1 (three_index _ (proj1 HQ))) in E1. destruct E1 as [S1 _]. pose proof (sameBut_quad _ _ _ HQ S1) as Q1.
  rewrite (proj1 (proj2 (three_index _ (proj1 Q1)))) in E2. destruct E2 as [S2 _]. pose proof (sameBut_quad _ _ _ Q1 S2) as Q2.
  rewrite (proj2 (proj2 (three_index _ (proj1 Q2)))) in E3. destruct E3 as (S3 & Hev & _). pose proof (sameBut_quad _ _ _ Q2 S3) as Q3.
  split; [exact S1|]. split; [exact S2|]. split; [exact S3|]. split; [exact Hev|]. split; intros src.
  - apply (quad_at _ _ 0 src Q3 Q1); [|lia|apply conf_amb]. rewrite (sameBut_nth 2 0 _ _ S3), (sameBut_nth 1 0 _ _ S2) by lia. reflexivity.
  - apply (quad_at _ _ 1 src Q3 Q2); [|lia|apply conf_amb]. apply (sameBut_nth 2 1 _ _ S3). lia.
Qed.

Lemma C83_example_fact : exists g', makeGenericE50_UEF_E95 1000 100 0x1.5541e893cab9ap+0%float (dec 148 100) 0x1.8afcfc1b2d78dp+0%float VerySmall exGen = (Ok tt, g') /\
  match cop0 (ge_set g') 1 with Some x => (nleb (dec 66469 10000) x && nleb x (dec 66470 10000))%bool | None => false end = true.
Proof.
  destruct (ok_check (makeGenericE50_UEF_E95 1000 100 0x1.5541e893cab9ap+0%float (dec 148 100) 0x1.8afcfc1b2d78dp+0%float VerySmall exGen)
             (fun _ g' => match cop0 (ge_set g') 1 with Some x => (nleb (dec 66469 10000) x && nleb x (dec 66470 10000))%bool | None => false end)) as ([] & g' & E & H0).
  - vm_compute. reflexivity.
  - exists g'. split; [exact E|exact H0].
Qed.
Lemma C83_points_fact : quadPts [mkpoly 50 [187; 2; 0] [5; -1 / 40; 0]; mkpoly (135 / 2) [153; 5 / 2; 0] [13 / 2; - 3 / 100; 0]; mkpoly 95 [99; 3; 0] [9; - 45 / 1000; 0]].
Proof.
  split.
  - eexists. eexists. eexists. split; [reflexivity|]. cbn. split; [reflexivity|]. split; reflexivity.
  - repeat (constructor; [cbn; lia|]). constructor.
Qed.
