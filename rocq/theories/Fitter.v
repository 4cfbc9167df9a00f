(** The optimizer and the generic-model procedures that use it.
    Models /repo/src/HPWHFitter.cc:1-274, the parts of /repo/src/HPWHFitter.hh they use, and
    /repo/src/HPWH.cc:4335-4427.

    A metric is an action [ev] on a state; a parameter is a pair of a reader and a writer of that
    state ([*data_ptr]).  The shared pointers to metrics and parameters are not modelled: the
    metric and the parameters are those of the constructor's arguments.  The numeric sentinel
    DBL_MIN that secant uses for "not known" is an option. *)

From Coq Require Import ZArith String List Bool.
From Verif Require Import Num Base Units Types Utils HeatSrc Setters Perf Rating.
Import ListNotations.
Local Open Scope string_scope.

Section Fitter.
  Context {T S : Type} `{Num T}.
  Local Open Scope num_scope.
  Local Open Scope monad_scope.

  (** ** Secant *)

  (** HPWHFitter.cc:61-62, 67, 91: f - epsLo <= v <= f + eps *)
  Definition inBand (f eps epsLo v : T) : bool :=
    ((v <=? f + eps) && (f - (if epsLo >=? #0 then epsLo else eps) <=? v))%bool.

  (** HPWHFitter.cc:88-107; [n] rounds are left and [i] is the loop counter, started at 19 and 1;
      the result is (code, x1, f1) *)
  Fixpoint secLoop (pf : T -> M S T) (f eps epsLo : T) (n : nat) (i : Z) (x1 f1 x2 f2 : T) : M S (Z * T * T) :=
    match n with
    | O => ret (i, x1, f1)
    | Datatypes.S n' =>
        if inBand f eps epsLo f1 then ret (0%Z, x1, f1)
        else if nabs (f1 - f2) <? dec 1 100000000000000000000 then ret ((- i)%Z, x1, f1)
        else
          let xN := x1 + (x2 - x1) * (f - f1) / (f2 - f1) in
          fN <- pf xN ;;
          secLoop pf f eps epsLo n' (i + 1)%Z xN fN x1 f1
    end.
  (** f1 or f2 if it is known, else the function's value *)
  Definition known (pf : T -> M S T) (x : T) (v : option T) : M S T :=
    match v with Some f => ret f | None => pf x end.
  (** HPWHFitter.cc:34-107 secant *)
  Definition secant (pf : T -> M S T) (f eps x1 : T) (f1 : option T) (x2 : T) (f2 : option T) (epsLo : T) :
    M S (Z * T * T) :=
    f1 <- known pf x1 f1 ;;
    if inBand f eps epsLo f1 then ret (0%Z, x1, f1)
    else
      f2 <- known pf x2 f2 ;;
      if nabs (f - f2) <? nabs (f - f1) then secLoop pf f eps epsLo 19 1 x2 f2 x1 f1
      else secLoop pf f eps epsLo 19 1 x1 f1 x2 f2.

  (** ** Metrics and parameters *)

  (** HPWHFitter.hh:18-30: a parameter is read and written through data_ptr; [pa_incr] is increment *)
  Record param : Type := mkparam { pa_get : S -> T; pa_set : T -> S -> S; pa_incr : T }.
  (** HPWHFitter.hh:131-146 *)
  Record metric : Type := mkmetric { me_eval : M S T; me_target : T; me_tol : T }.

  (** HPWHFitter.hh:178 findError *)
  Definition findError (m : metric) : M S T :=
    v <- me_eval m ;; lift (div_chk (v - me_target m) (me_tol m)).
  (** HPWHFitter.cc:10-18, 23-27 *)
  Definition single (m : metric) (p : param) (x : T) : M S T :=
    modify (pa_set p x) ;; me_eval m.

  (** HPWHFitter.cc:246-263 *)
  Definition fitOne (m : metric) (p : param) : M S unit :=
    s <- get ;;
    let value0 := pa_get p s in
    f0 <- me_eval m ;;
    let value1 := value0 + pa_incr p in
    modify (pa_set p value1) ;;
    f1 <- me_eval m ;;
    modify (pa_set p value0) ;;
    '(iters, _, _) <- secant (single m p) (me_target m) (dec 1 1000000000000) value0 (Some f0) value1 (Some f1)
                             (dec 1 1000000000000) ;;
    if Z.ltb iters 0 then throw "Failure in makeGenericModel using secant" else ret tt.

  (** ** Least squares, one metric and two parameters *)

  (** HPWHFitter.cc:114-147 getLeftDampedInverse for the two-element matrix (a b); [None] is false *)
  Definition leftDampedInverse (nu a b : T) : option (T * T) :=
    let A := (#1 + nu) * a * a in
    let B := (#1 + nu) * b * b in
    let C := a * b in
    let det := A * B - C * C in
    if nabs det <? dec 1 1000000000000 then None
    else Some ((a * B - b * C) / det, ((- a) * C + b * A) / det).

  (** HPWHFitter.cc:179-184: one entry of the jacobian *)
  Definition slopeOf (m : metric) (p : param) (v error incr : T) : M S T :=
    modify (pa_set p (v + incr)) ;;
    e <- findError m ;;
    j <- lift (div_chk (e - error) incr) ;;
    modify (pa_set p v) ;;
    ret j.
  (** HPWHFitter.cc:191-220: try the step; [Some] are the new increments and figure of merit *)
  Definition tryStep (m : metric) (p q : param) (vp vq error FOM : T) (inv : T * T) : M S (option (T * T * T)) :=
    let '(ia, ib) := inv in
    let da := (- ia) * error in
    let db := (- ib) * error in
    modify (pa_set p (vp + da)) ;;
    modify (pa_set q (vq + db)) ;;
    e <- findError m ;;
    modify (pa_set p vp) ;;
    modify (pa_set q vq) ;;
    if e * e <? FOM then
      modify (pa_set p (vp + da)) ;;
      modify (pa_set q (vq + db)) ;;
      ret (Some (nabs da / #1000, nabs db / #1000, e * e))
    else ret None.
  (** HPWHFitter.cc:161-235; [n] iterations are left, [ip] and [iq] are the two increments *)
  Fixpoint lsqLoop (m : metric) (p q : param) (n : nat) (nu ip iq : T) : M S unit :=
    match n with
    | O => throw "Fit did not converge."
    | Datatypes.S n' =>
        error <- findError m ;;
        let FOM := error * error in
        s <- get ;;
        let vp := pa_get p s in
        let vq := pa_get q s in
        ja <- slopeOf m p vp error ip ;;
        jb <- slopeOf m q vq error iq ;;
        r <- match leftDampedInverse nu ja jb with
             | Some inv => tryStep m p q vp vq error FOM inv
             | None => ret None
             end ;;
        match r with
        | Some (ip', iq', FOM') =>
            if FOM' <? dec 1 1000000000000 then ret tt else lsqLoop m p q n' (nu / #10) ip' iq'
        | None =>
            let nu := nu * #10 in
            if #1000000 <? nu then throw "Failure in performLeastSquaresMinimization"
            else if FOM <? dec 1 1000000000000 then ret tt
            else lsqLoop m p q n' nu ip iq
        end
    end.
  (** HPWHFitter.cc:154-236 performLeastSquaresMinimization *)
  Definition leastSquares (m : metric) (p q : param) : M S unit :=
    lsqLoop m p q 20 (dec 1 1000) (pa_incr p) (pa_incr q).

  (** HPWHFitter.cc:241-274 fit *)
  Definition fit (ms : list metric) (ps : list param) : M S unit :=
    match ps, ms with
    | [p], [m] => fitOne m p
    | [p; q], [m] => leastSquares m p q
    | _, _ => throw "Cannot perform fit."
    end.
End Fitter.
Arguments param : clear implicits.
Arguments metric : clear implicits.

(** ** Generic models *)
Section Generic.
  Context {T : Type} `{Num T}.
  Local Open Scope num_scope.
  Local Open Scope monad_scope.
  Notation W := (hpwh T).

  (** The unit, the polynomial set that the caller passes by reference, and EF_Metric::testSummary *)
  Record gen : Type := mkgen { ge_w : W; ge_set : list (@polyPt T); ge_last : option (@summary T) }.
  Definition withW (w : W) (g : gen) : gen := mkgen w (ge_set g) (ge_last g).
  Definition withSet (s : list (@polyPt T)) (g : gen) : gen := mkgen (ge_w g) s (ge_last g).

  (** HPWH.hh:1280-1305 PerformancePolySet::use and make as an evaluatePerformance function.  A
      failing evaluation is not modelled here: it gives zeros (PerfFacts treats it). *)
  Definition polyFun (s : list (@polyPt T)) : T -> T -> T -> perf T :=
    fun _ ext src => match polyEval s ext src with Ok p => p | _ => mkperf #0 #0 #0 end.
  (** HPWH.cc:1802-1811 getCompressor: the first heat source that is a Condenser *)
  Fixpoint firstComp (l : list (hsrc T)) : option (hsrc T) :=
    match l with
    | [] => None
    | h :: r => match h_type h with TCompressor => Some h | TResistance => firstComp r end
    end.
  Definition isComp (w : W) : bool := match firstComp (w_hs w) with Some _ => true | None => false end.
  (** assign a member of that heat source *)
  Fixpoint onFirstComp (f : hsrc T -> hsrc T) (l : list (hsrc T)) : list (hsrc T) :=
    match l with
    | [] => []
    | h :: r => match h_type h with TCompressor => f h :: r | TResistance => h :: onFirstComp f r end
    end.
  (** compressor->evaluatePerformance = perfPolySet.use() or .make() *)
  Definition install (g : gen) : gen :=
    withW (set_w_hs (onFirstComp (set_h_eval (polyFun (ge_set g))) (w_hs (ge_w g))) (ge_w g)) g.

  (** HPWHFitter.hh:171-175 EF_Metric::evaluate; the function installed by use() refers to the set, so
      the compressor sees the set as it is now *)
  Definition evalEF (k fuel : nat) (c : testConf) (d : designation) : M gen T :=
    fun g =>
      let g := install g in
      match run24hrTest k fuel c d (ge_w g) with
      | (Ok s, w') => (Ok (ts_EF s), mkgen w' (ge_set g) (Some s))
      | (Err e, w') => (Err e, withW w' g)
      | (UB e, w') => (UB e, withW w' g)
      | (NoFuel, w') => (NoFuel, withW w' g)
      end.

  (** constant coefficient of the COP polynomial of point [i] *)
  Definition cop0 (s : list (@polyPt T)) (i : nat) : option T :=
    match nth_error s i with Some p => nth_error (pp_cop p) 0 | None => None end.
  Definition setCop0 (s : list (@polyPt T)) (i : nat) (x : T) : list (@polyPt T) :=
    match nth_error s i with
    | Some p => upd s i (mkpoly (pp_T p) (pp_in p) (upd (pp_cop p) 0 x))
    | None => s
    end.
  (** HPWHFitter.hh:70-85, 109-128: COP_Coefficient (i, 0), once assign() has accepted it *)
  Definition copParam (i : nat) : param T gen :=
    mkparam (fun g => match cop0 (ge_set g) i with Some x => x | None => #0 end)
            (fun x g => withSet (setCop0 (ge_set g) i x) g)
            (dec 1 1000000000).

  (** HPWH.cc:4340-4382 makeGenericEF *)
  Definition makeGenericEF (k fuel : nat) (target : T) (c : testConf) (d : designation) : M gen (@summary T) :=
    g <- get ;;
    if negb (isComp (ge_w g)) then throw "No compressor"
    else
      modify install ;;
      g <- get ;;
      let i := getAmbientT_index (ge_set g) (tc_amb c) in
      match nth_error (ge_set g) i with
      | None => throw "Invalid heat-source performance-map temperature index."
      | Some p =>
          match pp_cop p with
          | [] => throw "Invalid heat-source performance-map coefficient exponent."
          | _ :: _ =>
              fit [mkmetric (evalEF k fuel c d) target (dec 1 1000000)] [copParam i] ;;
              modify install ;;
              g <- get ;;
              h <- lift (match firstComp (w_hs (ge_w g)) with Some h => Ok h | None => UB "compressor is NULL" end) ;;
              p1 <- lift (getPerformance (ge_w g) h (tc_amb c) (h_maxSet h)) ;;
              if p_cop p1 <? #0 then throw "COP is negative at maximum condenser temperature."
              else
                p0 <- lift (getPerformance (ge_w g) h (tc_amb c) #0) ;;
                if p_cop p0 <? p_cop p1 then throw "COP slope is positive."
                else match ge_last g with Some s => ret s | None => undef "no test was run" end
          end
      end.

  (** HPWH.cc:4402-4407 *)
  Definition shiftOthers (s : list (@polyPt T)) (i : nat) (delta : T) : outc (list (@polyPt T)) :=
    fold_left (fun o j =>
      obind o (fun s =>
        if Nat.eqb j i then Ok s
        else match cop0 s j with
             | Some x => Ok (setCop0 s j (x + delta))
             | None => UB "COP_coeffs[0]"
             end)) (seq 0 (length s)) (Ok s).
  (** HPWH.cc:4384-4411 makeGenericUEF *)
  Definition makeGenericUEF (k fuel : nat) (target : T) (d : designation) : M gen (@summary T) :=
    g <- get ;;
    if negb (isComp (ge_w g)) then throw "No compressor"
    else
      let i := getAmbientT_index (ge_set g) (tc_amb conf_UEF) in
      match cop0 (ge_set g) i with
      | None => undef "perfPolySet[i].COP_coeffs[0]"
      | Some original =>
          s <- makeGenericEF k fuel target conf_UEF d ;;
          g <- get ;;
          match cop0 (ge_set g) i with
          | None => undef "perfPolySet[i].COP_coeffs[0]"
          | Some now =>
              st <- lift (shiftOthers (ge_set g) i (now - original)) ;;
              modify (withSet st) ;;
              modify install ;;
              ret s
          end
      end.

  (** HPWH.cc:4416-4427 makeGenericE50_UEF_E95 *)
  Definition makeGenericE50_UEF_E95 (k fuel : nat) (e50 uef e95 : T) (d : designation) : M gen unit :=
    makeGenericEF k fuel e50 conf_E50 d ;;
    makeGenericEF k fuel uef conf_UEF d ;;
    makeGenericEF k fuel e95 conf_E95 d ;;
    ret tt.
End Generic.
