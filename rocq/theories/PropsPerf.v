(** Properties of performance maps: grids, polynomial sets, defrost.  Statements only; proofs in PerfFacts.v. *)

From Coq Require Import ZArith String List Bool Reals Lra Lia Permutation Floats Sorting.Sorted.
From Verif Require Import Num FNum Base Units Utils Types TankM Logic HeatSrc Perf Spec.
From Verif Require Import RList FrameProofs SimFrame Example.
From Verif Require Import PerfFacts.
Import ListNotations.
Local Open Scope R_scope.

(** Swapping the axes i and j of a performance grid succeeds whenever the tables have one entry per grid point; it exchanges the two axes and transposes both tables, leaving further tables alone. *)
Theorem C60_transposes : forall (T : Type) (N : Num T) (grid : list (list T)) v0 v1 rest i j, (i < length grid)%nat -> (j < length grid)%nat ->
  length v0 = volume (map (@length T) grid) -> length v1 = length v0 ->
  exists g' v0' v1', swapGridAxes grid (v0 :: v1 :: rest) i j = Ok (g', v0' :: v1' :: rest) /\ exchanged i j grid g' /\
    transposed (map (@length T) grid) i j v0 v0' /\ transposed (map (@length T) grid) i j v1 v1'.
Proof. exact C60_transposes_fact. Qed.
Print Assumptions C60_transposes.

(** Swapping the same two axes again restores axes and tables. *)
Theorem C60_involution : forall (T : Type) (N : Num T) (grid : list (list T)) v0 v1 rest i j g' vs', (i < length grid)%nat -> (j < length grid)%nat ->
  length v0 = volume (map (@length T) grid) -> length v1 = length v0 ->
  swapGridAxes grid (v0 :: v1 :: rest) i j = Ok (g', vs') -> swapGridAxes g' vs' i j = Ok (grid, v0 :: v1 :: rest).
Proof. exact C60_involution_fact. Qed.
Print Assumptions C60_involution.

Example C60_example : exists g' vs', swapGridAxes (T:=float) [[fofZ 1; fofZ 2]; [fofZ 5; fofZ 6; fofZ 7]] [map fofZ [1; 2; 3; 4; 5; 6]%Z; map fofZ [1; 2; 3; 4; 5; 6]%Z] 0 1 = Ok (g', vs') /\
  vs' = [map fofZ [1; 4; 2; 5; 3; 6]%Z; map fofZ [1; 4; 2; 5; 3; 6]%Z].
Proof. exact C60_example_fact. Qed.

(** Arranging a grid vector gives a strictly increasing vector with the same values. *)
Theorem C61_arrange : forall v : list R, StronglySorted Rlt (arrangeGridVector v) /\ (forall x, In x (arrangeGridVector v) <-> In x v).
Proof. exact C61_arrange_fact. Qed.
Print Assumptions C61_arrange.

(** Trimming keeps exactly the values within the limits, in strictly increasing order; with both limits added (as the writer of the data model does) the result starts and ends at the limits. *)
Theorem C61_trim : forall (v : list R) lo hi, StronglySorted Rlt (trimGridVector v lo hi) /\
  (forall x, In x (trimGridVector v lo hi) <-> In x v /\ lo <= x <= hi) /\
  (lo <= hi -> In lo v -> In hi v -> hd 0 (trimGridVector v lo hi) = lo /\ last (trimGridVector v lo hi) 0 = hi).
Proof. exact C61_trim_fact. Qed.
Print Assumptions C61_trim.

Example C61_example : trimGridVector (T:=float) (map fofZ [20; 5; 5; 40; 10; 35; 5]%Z) (fofZ 5) (fofZ 35) = map fofZ [5; 10; 20; 35]%Z.
Proof. exact C61_example_fact. Qed.

(** between two neighbouring points, both ends included, the result is on the line through them; before the first and
    after the last point it is on the line through the first and the last two points *)
Theorem C62_interpolates : forall (s : list (polyPt R)) ext src k a b, goodSet s ->
  nth_error s k = Some a -> nth_error s (S k) = Some b ->
  (k = 0%nat \/ pp_T a <= fahrenheit ext) -> (S (S k) = length s \/ fahrenheit ext <= pp_T b) ->
  exists p, polyEval s ext src = Ok p /\ onLine a b (fahrenheit ext) (fahrenheit src) p.
Proof. exact C62_interpolates_fact. Qed.
Print Assumptions C62_interpolates.

(** at the temperature of a point the result is that point's polynomials *)
Theorem C62_at_points : forall (s : list (polyPt R)) ext src k a, goodSet s ->
  nth_error s k = Some a -> fahrenheit ext = pp_T a ->
  exists p, polyEval s ext src = Ok p /\ p_cop p = quadAt (pp_cop a) (fahrenheit src) /\ p_in p = quadAt (pp_in a) (fahrenheit src) /\
    p_out p = quadAt (pp_cop a) (fahrenheit src) * quadAt (pp_in a) (fahrenheit src).
Proof. exact C62_at_points_fact. Qed.
Print Assumptions C62_at_points.

(** a well-formed set answers every question, and the output power of any answer is COP times input power, also for
    the regressions of the central systems *)
Theorem C62_output : (forall (s : list (polyPt R)) ext src, goodSet s -> exists p, polyEval s ext src = Ok p) /\
  (forall (s : list (polyPt R)) ext src p, polyEval s ext src = Ok p -> p_out p = p_cop p * p_in p) /\
  (forall (q : polyPt R) hot sp ext src p, polySP q hot sp ext src = Ok p -> p_out p = p_cop p * p_in p) /\
  (forall (q : polyPt R) ext src p, polyMP q ext src = Ok p -> p_out p = p_cop p * p_in p).
Proof. exact C62_output_fact. Qed.
Print Assumptions C62_output.

(** a set of one point, and an empty set, is rejected at every temperature *)
Theorem C62_single_rejected : forall (a : polyPt R) ext src, (3 <= length (pp_in a))%nat -> (3 <= length (pp_cop a))%nat ->
  polyEval [a] ext src = Err "std::out_of_range" /\ polyEval (@nil (polyPt R)) ext src = Err "std::out_of_range".
Proof. exact C62_single_rejected_fact. Qed.
Print Assumptions C62_single_rejected.

(** the index used for fitting is that of a point nearest to the ambient temperature; of two equally near ones the warmer *)
Theorem C62_nearest : forall (s : list (polyPt R)) amb, s <> [] -> StronglySorted (fun a b => pp_T a < pp_T b) s ->
  exists a, nth_error s (getAmbientT_index s amb) = Some a /\
    forall b, In b s -> Rabs (pp_T a - fahrenheit amb) <= Rabs (pp_T b - fahrenheit amb) /\
      (Rabs (pp_T a - fahrenheit amb) = Rabs (pp_T b - fahrenheit amb) -> pp_T b <= pp_T a).
Proof. exact C62_nearest_fact. Qed.
Print Assumptions C62_nearest.

Example C62_example : goodSet exSet /\ (exists p, polyEval exSet (125 / 9) 0 = Ok p /\ p_cop p = 6 /\ p_in p = 182) /\ getAmbientT_index exSet (125 / 9) = 1%nat.
Proof. exact C62_example_fact. Qed.

(** at or outside the ends of the table nothing is derated *)
Theorem C63_outside : forall (m : list (R * R)) p air, nth_error m 0 = Some p -> (air <= fst p \/ fst (last m (0, 0)) <= air) -> derateBy m air 1.
Proof. exact C63_outside_fact. Qed.
Print Assumptions C63_outside.

(** strictly inside the table the COP is multiplied by the straight line between the two table entries around the
    temperature; at an inner entry that is the fraction of the entry, whichever of its intervals is meant *)
Theorem C63_interpolates : forall (m : list (R * R)) k x0 y0 x1 y1 air, StronglySorted (fun a b => fst a < fst b) m ->
  nth_error m k = Some (x0, y0) -> nth_error m (S k) = Some (x1, y1) -> x0 <= air <= x1 ->
  (exists p, nth_error m 0 = Some p /\ fst p < air) -> air < fst (last m (0, 0)) ->
  derateBy m air (y0 + (air - x0) / (x1 - x0) * (y1 - y0)).
Proof. exact C63_interpolates_fact. Qed.
Print Assumptions C63_interpolates.

(** the factor lies between the least and the greatest fraction of the table, one included *)
Theorem C63_range : forall (m : list (R * R)) air lo hi, m <> [] -> StronglySorted (fun a b => fst a < fst b) m ->
  lo <= 1 <= hi -> Forall (fun p => lo <= snd p <= hi) m -> exists f, derateBy m air f /\ lo <= f <= hi.
Proof. exact C63_range_fact. Qed.
Print Assumptions C63_range.

(** the table set up by the library: the factor is one up to 17 F and from 47 F, the given fraction at 35 F, between one
    and that fraction everywhere; the output power of a performance query with no other adjustment is derated by it *)
Theorem C63_standard : forall d air (h : hsrc R), h_defrost h = [] -> exists f, derateBy (h_defrost (setupDefrostMap d h)) air f /\ Rmin d 1 <= f <= Rmax d 1 /\
  (air <= 17 \/ 47 <= air -> f = 1) /\ (air = 35 -> f = d) /\
  (17 <= air <= 35 -> f = 1 - (1 - d) * (air - 17) / 18) /\ (35 <= air <= 47 -> f = 1 - (1 - d) * (47 - air) / 12).
Proof. exact C63_standard_fact. Qed.
Print Assumptions C63_standard.

(** in a performance query the factor multiplies COP and output power and leaves the input power; the temperature it is
    taken at is the air temperature raised by the defrost element when that is on *)
Theorem C63_performance : forall (w : hpwh R) (h : hsrc R) ext cond air f p,
  air = (if (Rltb 0 (h_rdPwr h) && Rltb ext ((h_rdBelow h - 32) * 5 / 9))%bool then ext + h_rdLift h * 5 / 9 else ext) ->
  derateBy (h_defrost h) (fahrenheit air) f ->
  getPerformance w (set_h_doDefrost false h) ext cond = Ok p ->
  exists q, getPerformance w (set_h_doDefrost true h) ext cond = Ok q /\ p_cop q = f * p_cop p /\ p_out q = f * p_out p /\ p_in q = p_in p.
Proof. exact C63_performance_fact. Qed.
Print Assumptions C63_performance.

(** setting the table up a second time appends to it and has no effect on the derating: the first fraction stays in force *)
Theorem C63_second_setup_ignored : forall d d' cop air (h : hsrc R), h_defrost h = [] ->
  defrostDerate (h_defrost (setupDefrostMap d' (setupDefrostMap d h))) cop air = defrostDerate (h_defrost (setupDefrostMap d h)) cop air.
Proof. exact C63_second_setup_ignored_fact. Qed.
Print Assumptions C63_second_setup_ignored.

(** so the natural claim, that the last call decides the fraction at 35 F, is false *)
Theorem C63_last_setup_wins_refuted : exists (h : hsrc R) d d', h_defrost h = [] /\
  ~ derateBy (h_defrost (setupDefrostMap d' (setupDefrostMap d h))) 35 d'.
Proof. exact C63_last_setup_wins_refuted_fact. Qed.
Print Assumptions C63_last_setup_wins_refuted.

Example C63_example : derateBy [(17, 1); (35, 8865 / 10000); (47, 1)] 41 (94325 / 100000).
Proof. exact C63_example_fact. Qed.
