(** Performance maps: polynomial sets, regressions, grid preparation.
    Models /repo/src/HPWH.cc:4429-4560, /repo/src/HPWHUtils.cc:251-300 and
    /repo/src/Condenser.cc:177-204, 990-996. *)

From Coq Require Import ZArith String List Bool.
From Verif Require Import Num Base Units Types Utils HeatSrc.
Import ListNotations.
Local Open Scope string_scope.

Section Perf.
  Context {T : Type} `{Num T}.
  Local Open Scope num_scope.

  (** ** Polynomial sets *)

  (** HPWH.hh:1266-1278 *)
  Record polyPt : Type := mkpoly { pp_T : T; pp_in : list T; pp_cop : list T }.

  (** HPWH.cc:4429-4446 getAmbientT_index: (i0, i1) after the loop *)
  Fixpoint ambLoop (s : list polyPt) (tF : T) (i0 i1 : nat) : nat * nat :=
    match s with
    | [] => (i0, i1)
    | p :: r => if tF <? pp_T p then (i0, i1) else ambLoop r tF i1 (S i1)
    end.
  Definition getAmbientT_index (s : list polyPt) (tC : T) : nat :=
    let '(i0, i1) := ambLoop s (C_TO_F tC) 0 0 in
    let ratio :=
      if (Nat.ltb i0 i1 && Nat.ltb i1 (length s))%bool then
        match nth_error s i0, nth_error s i1 with
        | Some a, Some b => (C_TO_F tC - pp_T a) / (pp_T b - pp_T a)
        | _, _ => #0
        end
      else #0 in
    if ratio <? dec 5 10 then i0 else i1.

  (** HPWH.cc:4457-4482: the loop that chooses the two points; [None] stands for the index size_t(-1) *)
  Fixpoint evalLoop (s : list polyPt) (n : nat) (tF : T) (i : nat) : option nat * nat :=
    match s with
    | [] => (Some O, 1%nat)
    | p :: r =>
        if tF <? pp_T p then
          match i with O => (Some O, 1%nat) | S k => (Some k, i) end
        else if Nat.eqb i (n - 1) then (match i with O => None | S k => Some k end, i)
        else evalLoop r n tF (S i)
    end.
  (** c[0] + c[1] x + c[2] x x; vector::operator[] is not checked *)
  Definition quadratic (c : list T) (x : T) : outc T :=
    match c with
    | c0 :: c1 :: c2 :: _ => Ok (c0 + c1 * x + c2 * x * x)
    | _ => UB "coefficient index out of range"
    end.
  Definition atPoint (s : list polyPt) (i : option nat) : outc polyPt :=
    match i with
    | None => Err "std::out_of_range"
    | Some i => match nth_error s i with Some p => Ok p | None => Err "std::out_of_range" end
    end.
  (** HPWH.cc:4448-4511 PerformancePolySet::evaluate *)
  Definition polyEval (s : list polyPt) (extC srcC : T) : outc (perf T) :=
    let tF := C_TO_F extC in
    let x := C_TO_F srcC in
    let '(ip, inx) := evalLoop s (length s) tF 0 in
    obind (atPoint s ip) (fun a =>
    obind (quadratic (pp_cop a) x) (fun cop1 =>
    obind (atPoint s (Some inx)) (fun b =>
    obind (quadratic (pp_cop b) x) (fun cop2 =>
    obind (quadratic (pp_in a) x) (fun in1 =>
    obind (quadratic (pp_in b) x) (fun in2 =>
    if ndivok (pp_T b - pp_T a) then
      let cop := linearInterp tF (pp_T a) (pp_T b) cop1 cop2 in
      let inp := linearInterp tF (pp_T a) (pp_T b) in1 in2 in
      Ok (mkperf inp (cop * inp) cop)
    else UB "division by zero")))))).

  (** ** Regressions of the central systems *)

  (** HPWH.cc:4513-4518 *)
  Definition regressedMethod (c : list T) (x1 x2 x3 : T) : outc T :=
    match c with
    | c0 :: c1 :: c2 :: c3 :: c4 :: c5 :: c6 :: c7 :: c8 :: c9 :: c10 :: _ =>
        Ok (c0 + c1 * x1 + c2 * x2 + c3 * x3 + c4 * x1 * x1 + c5 * x2 * x2 + c6 * x3 * x3 + c7 * x1 * x2
              + c8 * x1 * x3 + c9 * x2 * x3 + c10 * x1 * x2 * x3)
    | _ => UB "coefficient index out of range"
    end.
  (** HPWH.cc:4520-4525 *)
  Definition regressedMethodMP (c : list T) (x1 x2 : T) : outc T :=
    match c with
    | c0 :: c1 :: c2 :: c3 :: c4 :: c5 :: _ =>
        Ok (c0 + c1 * x1 + c2 * x2 + c3 * x1 * x1 + c4 * x2 * x2 + c5 * x1 * x2)
    | _ => UB "coefficient index out of range"
    end.
  (** HPWH.cc:4527-4545 PerformancePoly_CWHS_SP::make; the closure reads the setpoint and the hot side offset *)
  Definition polySP (p : polyPt) (hot setpoint extC srcC : T) : outc (perf T) :=
    let t1 := C_TO_F extC in
    let t2 := C_TO_F (setpoint + hot) in
    let t3 := C_TO_F srcC in
    obind (regressedMethod (pp_in p) t1 t2 t3) (fun i =>
    obind (regressedMethod (pp_cop p) t1 t2 t3) (fun cop =>
    Ok (mkperf (KW_TO_W i) (cop * KW_TO_W i) cop))).
  (** HPWH.cc:4547-4561 PerformancePoly_CWHS_MP::make *)
  Definition polyMP (p : polyPt) (extC srcC : T) : outc (perf T) :=
    let t1 := C_TO_F extC in
    let t2 := C_TO_F srcC in
    obind (regressedMethodMP (pp_in p) t1 t2) (fun i =>
    obind (regressedMethodMP (pp_cop p) t1 t2) (fun cop =>
    Ok (mkperf (KW_TO_W i) (cop * KW_TO_W i) cop))).

  (** ** Defrost map *)

  (** Condenser.cc:989-996 setupDefrostMap: appends to the map already there *)
  Definition setupDefrostMap (derate35 : T) (h : hsrc T) : hsrc T :=
    set_h_doDefrost true (set_h_defrost (h_defrost h ++ [(#17, #1); (#35, derate35); (#47, #1)])%list h).

  (** ** Grid vectors *)

  (** std::sort with operator<, here as insertion sort *)
  Fixpoint insert (x : T) (l : list T) : list T :=
    match l with
    | [] => [x]
    | y :: r => if x <? y then x :: l else y :: insert x r
    end.
  Definition isort (l : list T) : list T := fold_right insert [] l.
  (** Condenser.cc:182-191: skips entries not greater than the one before *)
  Fixpoint skipDup (prev : option T) (l : list T) : list T :=
    match l with
    | [] => []
    | x :: r =>
        if match prev with None => true | Some p => x >? p end
        then x :: skipDup (Some x) r else skipDup (Some x) r
    end.
  (** Condenser.cc:177-191 arrangeGridVector *)
  Definition arrangeGridVector (v : list T) : list T := skipDup None (isort v).
  (** Condenser.cc:193-203 trimGridVector *)
  Definition trimGridVector (v : list T) (lo hi : T) : list T :=
    filter (fun x => (lo <=? x) && (x <=? hi))%bool (arrangeGridVector v).

  (** ** Swapping two axes of the performance grid, HPWHUtils.cc:251-300 *)

  (** lines 267-271: axes_ind *)
  Definition swapIx (i j k : nat) : nat := if Nat.eqb k i then j else if Nat.eqb k j then i else k.
  (** lines 277-279: product of the sizes of the axes after [a] *)
  Definition stride (sizes : list nat) (a : nat) : nat := fold_left Nat.mul (skipn (S a) sizes) 1%nat.
  (** lines 274-281: iElemNew *)
  Definition elemNew (sizes axes idx : list nat) : nat :=
    fold_left (fun s a => (s + stride sizes a * nth a idx 0)%nat) axes 0%nat.
  (** lines 286-297: the counter; [axes] from the last to the first *)
  Fixpoint nextIdx (sizes axes idx : list nat) : list nat :=
    match axes with
    | [] => idx
    | a :: r =>
        let v := S (nth a idx 0%nat) in
        if Nat.ltb v (nth a sizes 0%nat) then upd idx a v else nextIdx sizes r (upd idx a 0%nat)
    end.
  (** lines 272-298: the sequence of iElemNew *)
  Fixpoint swapOrder (cnt : nat) (sizes axes idx : list nat) : list nat :=
    match cnt with
    | O => []
    | S c => elemNew sizes axes idx :: swapOrder c sizes axes (nextIdx sizes (rev axes) idx)
    end.
  (** v[iElem] = orig[iElemNew] for the indices listed; reading out of range is undefined *)
  Fixpoint gather {A} (orig : list A) (order : list nat) : outc (list A) :=
    match order with
    | [] => Ok []
    | k :: r => match nth_error orig k with
                | None => UB "performance grid index out of range"
                | Some x => obind (gather orig r) (fun xs => Ok (x :: xs))
                end
    end.
  Definition swapAt {A} (l : list A) (i j : nat) : list A :=
    match nth_error l i, nth_error l j with
    | Some x, Some y => upd (upd l i y) j x
    | _, _ => l
    end.
  Definition swapGridAxes (grid vals : list (list T)) (i j : nat) : outc (list (list T) * list (list T)) :=
    match vals with
    | v0 :: v1 :: rest =>
        let n := length grid in
        if (Nat.ltb i n && Nat.ltb j n && Nat.leb (length v0) (length v1))%bool then
          let sizes := map (@length T) grid in
          let order := swapOrder (length v0) sizes (map (swapIx i j) (seq 0 n)) (repeat 0%nat n) in
          obind (gather v0 order) (fun v0' =>
          obind (gather v1 order) (fun v1' =>
          Ok (swapAt grid i j, v0' :: (v1' ++ skipn (length v0) v1)%list :: rest)))
        else UB "performance grid index out of range"
    | _ => UB "performance grid index out of range"
    end.
End Perf.
Arguments polyPt : clear implicits.
