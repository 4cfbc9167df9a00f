(** Properties of the optimizer and of the generic-model procedures.  Statements only; proofs in FitterFacts.v. *)

From Coq Require Import ZArith String List Bool Reals Lra Lia Floats.
From Verif Require Import Num FNum Base Units Utils Types TankM Logic HeatSrc Step Setters Perf Rating Fitter Spec.
From Verif Require Import RList FrameProofs SimFrame ControlProofs StepEnergy SeqProofs Example.
From Verif Require Import FitterFacts.
Import ListNotations.
Local Open Scope R_scope.

(** Given the two guesses with their values, the search ends after at most 19 calls of the function.  It
    returns the last call's argument and value; without a call, the guess that is closer to the value
    sought.  The code is 0 and the value is within the tolerances; or the code is 20 and 19 calls were
    made; or the code is minus the number of the round and the value is equal, within 1e-20, to an
    earlier one.  This holds for doubles as for reals. *)
Theorem C66_secant : forall (T S : Type) (N : Num T) (pf : T -> M S T) (f eps x1 f1 x2 f2 lo : T) s code x fx s',
  nleb (nofZ 0) lo = true ->
  secant pf f eps x1 (Some f1) x2 (Some f2) lo s = (Ok (code, x, fx), s') ->
  exists cs, calls pf s cs s' /\ (length cs <= 19)%nat /\
    ((x, fx) = last cs (x1, f1) \/
     (x, fx) = last cs (x2, f2) /\ nltb (nabs (nsub f f2)) (nabs (nsub f f1)) = true) /\
    ((code = 0%Z /\ near f eps lo fx) \/
     (code = 20%Z /\ length cs = 19%nat) \/
     (code = (- (1 + Z.of_nat (length cs)))%Z /\
      exists y fy, In (y, fy) ((x1, f1) :: (x2, f2) :: cs) /\ flat fx fy)).
Proof. exact C66_secant_fact. Qed.
Print Assumptions C66_secant.

(** On a straight line that is not level the search needs one call and finds the argument exactly. *)
Theorem C66_line : forall (S : Type) (pf : R -> M S R) (a b f eps x1 x2 : R) s,
  (forall x s, exists s1, pf x s = (Ok (a * x + b), s1)) ->
  0 <= eps -> 1 / 100000000000000000000 <= Rabs (a * (x1 - x2)) ->
  exists code x fx s', secant pf f eps x1 (Some (a * x1 + b)) x2 (Some (a * x2 + b)) eps s = (Ok (code, x, fx), s') /\
    code = 0%Z /\ Rabs (fx - f) <= eps /\ fx = a * x + b /\
    (x = x1 \/ x = x2 \/ a * x + b = f).
Proof. exact C66_line_fact. Qed.
Print Assumptions C66_line.

(** What a fit of one parameter does: it evaluates the metric at the parameter's value and at the value
    plus the increment, puts the value back and then makes at most 19 further evaluations, each after
    setting the parameter.  If it reports no error, the last evaluation is within 1e-12 of the target or
    19 were made.  If these evaluations do not fail, an error means two values within 1e-20 of each
    other.  This holds for doubles as for reals. *)
Theorem C66_fit : forall (T S : Type) (N : Num T) (m : metric T S) (p : param T S) s o s',
  let tol := dec 1 1000000000000 in
  let v0 := pa_get p s in let v1 := nadd v0 (pa_incr p) in
  nleb (nofZ 0) (tol : T) = true ->
  fit [m] [p] s = (o, s') ->
  (forall f0 s0 f1 s1,
    me_eval m s = (Ok f0, s0) -> me_eval m (pa_set p v1 s0) = (Ok f1, s1) ->
    (forall x t, exists v t', me_eval m (pa_set p x t) = (Ok v, t')) ->
    exists cs, calls (fun x t => me_eval m (pa_set p x t)) (pa_set p v0 s1) cs s' /\ (length cs <= 19)%nat /\
     exists x fx, In (x, fx) [(v0, f0); (v1, f1)] /\
       (o = Ok tt /\ near (me_target m) tol tol (snd (last cs (x, fx))) \/
        o = Ok tt /\ length cs = 19%nat \/
        o = Err "Failure in makeGenericModel using secant" /\
          exists y fy, In (y, fy) ([(v0, f0); (v1, f1)] ++ cs) /\ flat (snd (last cs (x, fx))) fy)).
Proof. exact C66_fit_fact. Qed.
Print Assumptions C66_fit.

(** For a metric that is a function of the parameter: when the fit reports no error, the parameter it
    leaves meets the target to 1e-12; or it was the sum of the old value and the increment that met it,
    and the old value is left; or 19 evaluations were not enough. *)
Theorem C66_fit_result : forall (S : Type) (m : metric R S) (p : param R S) (F : R -> R) s s',
  pure1 m p F -> fit [m] [p] s = (Ok tt, s') ->
  Rabs (F (pa_get p s') - me_target m) <= 1 / 1000000000000 \/
  (pa_get p s' = pa_get p s /\ Rabs (F (pa_get p s + pa_incr p) - me_target m) <= 1 / 1000000000000) \/
  exists s1 cs, calls (fun x t => me_eval m (pa_set p x t)) s1 cs s' /\ length cs = 19%nat.
Proof. exact C66_fit_result_fact. Qed.
Print Assumptions C66_fit_result.

(** If the first guess misses the target and the guess plus the increment meets it, the fit reports no
    error and leaves the guess. *)
Theorem C66_second_guess : forall (S : Type) (m : metric R S) (p : param R S) (F : R -> R) s,
  pure1 m p F ->
  Rabs (F (pa_get p s) - me_target m) > 1 / 1000000000000 ->
  Rabs (F (pa_get p s + pa_incr p) - me_target m) <= 1 / 1000000000000 ->
  exists s', fit [m] [p] s = (Ok tt, s') /\ pa_get p s' = pa_get p s.
Proof. exact C66_second_guess_fact. Qed.
Print Assumptions C66_second_guess.

(** So a fit that reports no error may leave a parameter that misses the target although a value that
    meets it was tried. *)
Theorem C66_success_refuted : exists (F : R -> R) (target s s' : R),
  fit [plainMetric F target (1 / 1000000)] [plainParam (1 / 1000000000)] s = (Ok tt, s') /\
  Rabs (F s' - target) > 1 / 1000000000000.
Proof. exact C66_success_refuted_fact. Qed.
Print Assumptions C66_success_refuted.

(** A fit that does not converge reports no error either, in double arithmetic: no x has x^2 + 1 = 0. *)
Theorem C66_converged_refuted : exists (F : float -> float) (target s s' : float),
  fit [plainMetric F target (dec 1 1000000)] [plainParam (dec 1 1000000000)] s = (Ok tt, s') /\
  (1 <=? F s')%float = true /\ target = 0%float.
Proof. exact C66_converged_refuted_fact. Qed.
Print Assumptions C66_converged_refuted.

(** When the metric is a straight line in the parameter, not too level, and the second guess does not
    meet the target, the fit succeeds and the parameter it leaves meets the target to 1e-12. *)
Theorem C66_fit_line : forall (S : Type) (m : metric R S) (p : param R S) (a b : R) s,
  pure1 m p (fun x => a * x + b) ->
  1 / 100000000000000000000 <= Rabs (a * pa_incr p) ->
  Rabs (a * (pa_get p s + pa_incr p) + b - me_target m) > 1 / 1000000000000 ->
  exists s', fit [m] [p] s = (Ok tt, s') /\ Rabs (a * pa_get p s' + b - me_target m) <= 1 / 1000000000000.
Proof. exact C66_fit_line_fact. Qed.
Print Assumptions C66_fit_line.

(** a fit that succeeds: the state 1 is moved to where 3 x + 2 = 11 *)
Example C66_example : exists s', fit [plainMetric (fun x : R => 3 * x + 2) 11 (1 / 1000000)] [plainParam (1 / 1000000000)] 1 = (Ok tt, s') /\
  Rabs (3 * s' + 2 - 11) <= 1 / 1000000000000.
Proof. exact C66_example_fact. Qed.

(** The damped inverse x, y of the row (a b) solves the damped normal equations
    (J'J + nu diag (J'J)) (x y)' = J'. *)
Theorem C66_damped_inverse : forall nu a b x y : R,
  leftDampedInverse nu a b = Some (x, y) ->
  (1 + nu) * (a * a) * x + a * b * y = a /\ a * b * x + (1 + nu) * (b * b) * y = b.
Proof. exact C66_damped_inverse_fact. Qed.
Print Assumptions C66_damped_inverse.

Example C66_damped_example : exists x y : R, leftDampedInverse 1 1 2 = Some (x, y).
Proof. exact C66_damped_example_fact. Qed.

(** For a metric that is a function of two parameters: when the fit reports no error the parameters it
    leaves meet the target to 1e-6 of the metric's tolerance; and whether it reports an error or not they
    are no further from the target than before. *)
Theorem C66_least_squares : forall (S : Type) (m : metric R S) (p q : param R S) (F : R -> R -> R) s o s',
  pure2 m p q F -> 0 < me_tol m -> fit [m] [p; q] s = (o, s') ->
  (o = Ok tt -> Rabs (F (pa_get p s') (pa_get q s') - me_target m) < me_tol m / 1000000) /\
  ((o = Ok tt \/ exists msg, o = Err msg) ->
   Rabs (F (pa_get p s') (pa_get q s') - me_target m) <= Rabs (F (pa_get p s) (pa_get q s) - me_target m)).
Proof. exact C66_least_squares_fact. Qed.
Print Assumptions C66_least_squares.

Example C66_pair_example : forall (F : R -> R -> R) (target tol i j : R),
  pure2 (pairMetric F target tol) (pairParam1 i) (pairParam2 j) F.
Proof. exact C66_pair_example_fact. Qed.

(** run in double arithmetic: x y = 6 from (1, 2) *)
Example C66_pair_run : exists s' : float * float,
  fit [pairMetric PrimFloat.mul 6%float (dec 1 1000000)] [pairParam1 (dec 1 1000000000); pairParam2 (dec 1 1000000000)] (1, 2)%float = (Ok tt, s') /\
  (5.5 <? fst s' * snd s')%float = true /\ (fst s' * snd s' <? 6.5)%float = true /\ (1 <? fst s')%float = true.
Proof. exact C66_pair_run_fact. Qed.

(** makeGenericEF, when it succeeds, has changed only the constant COP coefficient of the point nearest
    to the configuration's ambient temperature, in the caller's set and in the compressor.  It has made
    at most 19 trials, each a test with another value of this coefficient.  Either the set is that of the
    last trial, the summary returned is this trial's, and its EF is within 1e-12 of the target or 19
    trials were not enough; or there was no trial and the set is as before, and the summary is that of a
    test with the coefficient raised by 1e-9, where the EF with or without this raise is within 1e-12 of
    the target.  This holds for doubles as for reals. *)
Theorem C81_EF_any : forall (T : Type) (N : Num T) k fuel target c d (g g' : @gen T) sm,
  let tol := dec 1 1000000000000 in
  nleb (nofZ 0) (tol : T) = true ->
  makeGenericEF k fuel target c d g = (Ok sm, g') ->
  let i := getAmbientT_index (ge_set g) (tc_amb c) in
  sameBut i (ge_set g) (ge_set g') /\ evaluates (ge_w g') (ge_set g') /\
  exists y trials, withConst i y (ge_set g) (ge_set g) /\ (length trials <= 19)%nat /\
    Forall (fun p => exists st, withConst i (fst p) (ge_set g) st /\ tested k fuel c d st (snd p)) trials /\
    ((exists init x, trials = init ++ [(x, sm)] /\ withConst i x (ge_set g) (ge_set g') /\ tested k fuel c d (ge_set g') sm /\
        (near target tol tol (ts_EF sm) \/ length trials = 19%nat)) \/
     (trials = [] /\ withConst i y (ge_set g) (ge_set g') /\ exists st sm0,
        withConst i (nadd y (dec 1 1000000000)) (ge_set g) st /\ tested k fuel c d st sm /\ tested k fuel c d (ge_set g) sm0 /\
        (near target tol tol (ts_EF sm0) \/ near target tol tol (ts_EF sm)))).
Proof. exact C81_EF_any_fact. Qed.
Print Assumptions C81_EF_any.

(** The same for reals, in terms of the change of the coefficient. *)
Theorem C81_EF : forall k fuel target c d (g g' : @gen R) sm,
  makeGenericEF k fuel target c d g = (Ok sm, g') ->
  let i := getAmbientT_index (ge_set g) (tc_amb c) in
  sameBut i (ge_set g) (ge_set g') /\ evaluates (ge_w g') (ge_set g') /\
  ((exists delta, shifted i delta (ge_set g) (ge_set g') /\ tested k fuel c d (ge_set g') sm /\
      (Rabs (ts_EF sm - target) <= 1 / 1000000000000 \/
       exists trials, length trials = 19%nat /\ Forall (fun p => exists st, shifted i (fst p) (ge_set g) st /\ tested k fuel c d st (snd p)) trials)) \/
   (shifted i 0 (ge_set g) (ge_set g') /\ exists st sm0,
      shifted i (1 / 1000000000) (ge_set g) st /\ tested k fuel c d st sm /\ tested k fuel c d (ge_set g) sm0 /\
      (Rabs (ts_EF sm0 - target) <= 1 / 1000000000000 \/ Rabs (ts_EF sm - target) <= 1 / 1000000000000))).
Proof. exact C81_EF_fact. Qed.
Print Assumptions C81_EF.

Example C81_example : exists sm g', makeGenericEF 1000 100 (dec 3 1) conf_UEF VerySmall exGen = (Ok sm, g') /\ exFits sm g' = true.
Proof. exact C81_example_fact. Qed.

Example C81_index : getAmbientT_index (ge_set exGen) (tc_amb conf_UEF) = 1%nat /\ nleb (nofZ 0) (dec 1 1000000000000 : float) = true.
Proof. exact C81_index_fact. Qed.

(** Its result has a COP that is not negative at the highest setpoint and not lower at 0 C, at the
    configuration's ambient temperature. *)
Theorem C81_cop : forall k fuel target c d (g g' : @gen R) sm,
  makeGenericEF k fuel target c d g = (Ok sm, g') ->
  exists l h r p1 p0, w_hs (ge_w g') = l ++ h :: r /\ Forall (fun x => h_type x = TResistance) l /\ h_type h = TCompressor /\
    getPerformance (ge_w g') h (tc_amb c) (h_maxSet h) = Ok p1 /\ getPerformance (ge_w g') h (tc_amb c) 0 = Ok p0 /\
    0 <= p_cop p1 <= p_cop p0.
Proof. exact C81_cop_fact. Qed.
Print Assumptions C81_cop.

(** makeGenericUEF, when it succeeds, has changed the constant COP coefficient of every point by the same
    amount and nothing else, in the caller's set and in the compressor.  The summary it returns is that of
    a test made before the other points were changed: with the nearest point alone changed by this amount
    (or by 1e-9, and then the set is as before). *)
Theorem C82_UEF : forall k fuel target d (g g' : @gen R) sm,
  makeGenericUEF k fuel target d g = (Ok sm, g') ->
  let i := getAmbientT_index (ge_set g) (tc_amb conf_UEF) in
  exists delta, allShifted delta (ge_set g) (ge_set g') /\ evaluates (ge_w g') (ge_set g') /\
    exists e st, shifted i e (ge_set g) st /\ tested k fuel conf_UEF d st sm /\ (e = delta \/ delta = 0 /\ e = 1 / 1000000000).
Proof. exact C82_UEF_fact. Qed.
Print Assumptions C82_UEF.

(** With points at 50, 67.5 and 95 F the final set performs, at 67.5 F, exactly as the set of the test
    whose summary makeGenericUEF returns (unless no trial was needed). *)
Theorem C82_UEF_ambient : forall k fuel target d (g g' : @gen R) sm,
  makeGenericUEF k fuel target d g = (Ok sm, g') -> quadPts (ge_set g) ->
  exists st, (tested k fuel conf_UEF d st sm /\ (forall src, polyEval (ge_set g') (tc_amb conf_UEF) src = polyEval st (tc_amb conf_UEF) src)) \/
             (allShifted 0 (ge_set g) (ge_set g') /\ shifted 1 (1 / 1000000000) (ge_set g) st /\ tested k fuel conf_UEF d st sm).
Proof. exact C82_UEF_ambient_fact. Qed.
Print Assumptions C82_UEF_ambient.

(** in double arithmetic makeGenericUEF succeeds on the example unit *)
Example C82_example : exists sm g', makeGenericUEF 1000 100 (dec 3 1) VerySmall exGen = (Ok sm, g') /\
  (exFits sm g' && match cop0 (ge_set g') 0 with Some x => nleb (dec 816 100) x && nleb x (dec 817 100) | None => false end)%bool = true.
Proof. exact C82_example_fact. Qed.

(** makeGenericE50_UEF_E95 with points at 50, 67.5 and 95 F changes at most the constant COP coefficient
    of each of the three points.  The later fits do not disturb the earlier ones: at each configuration's
    ambient temperature the final set performs exactly as the set that this configuration's own fit left. *)
Theorem C83_three : forall k fuel e50 uef e95 d (g g' : @gen R),
  makeGenericE50_UEF_E95 k fuel e50 uef e95 d g = (Ok tt, g') -> quadPts (ge_set g) ->
  exists g1 g2 sm1 sm2 sm3,
    makeGenericEF k fuel e50 conf_E50 d g = (Ok sm1, g1) /\ makeGenericEF k fuel uef conf_UEF d g1 = (Ok sm2, g2) /\
    makeGenericEF k fuel e95 conf_E95 d g2 = (Ok sm3, g') /\
    sameBut 0 (ge_set g) (ge_set g1) /\ sameBut 1 (ge_set g1) (ge_set g2) /\ sameBut 2 (ge_set g2) (ge_set g') /\
    evaluates (ge_w g') (ge_set g') /\
    (forall src, polyEval (ge_set g') (tc_amb conf_E50) src = polyEval (ge_set g1) (tc_amb conf_E50) src) /\
    (forall src, polyEval (ge_set g') (tc_amb conf_UEF) src = polyEval (ge_set g2) (tc_amb conf_UEF) src).
Proof. exact C83_three_fact. Qed.
Print Assumptions C83_three.

(** in double arithmetic it succeeds on the example unit; the first and third targets are what the unit has
    already, the second moves the middle coefficient from 6.6439 to 6.6469 *)
Example C83_example : exists g', makeGenericE50_UEF_E95 1000 100 0x1.5541e893cab9ap+0%float (dec 148 100) 0x1.8afcfc1b2d78dp+0%float VerySmall exGen = (Ok tt, g') /\
  match cop0 (ge_set g') 1 with Some x => (nleb (dec 66469 10000) x && nleb x (dec 66470 10000))%bool | None => false end = true.
Proof. exact C83_example_fact. Qed.

Example C83_points : quadPts [mkpoly 50 [187; 2; 0] [5; -1 / 40; 0]; mkpoly (135 / 2) [153; 5 / 2; 0] [13 / 2; - 3 / 100; 0]; mkpoly 95 [99; 3; 0] [9; - 45 / 1000; 0]].
Proof. exact C83_points_fact. Qed.
