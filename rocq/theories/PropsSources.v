(** Properties of derived indices, resistance elements, compressor capacity and sizing fractions.  Statements only; proofs in SourcesFacts.v. *)

From Coq Require Import ZArith String List Bool Reals Lra Lia Permutation Floats Sorting.Sorted.
From Verif Require Import Num FNum Base Units Utils Types TankM Logic HeatSrc Step Setters Spec SpecState SpecDist.
From Verif Require Import RList FrameProofs SimFrame MixProofs DistProofs TankFacts ControlProofs EnergyFacts SettersFacts Example.
From Verif Require Import SourcesFacts.
Import ListNotations.
Local Open Scope R_scope.

(** After configuration the compressor index is that of the last compressor, or -1 if there is none. *)
Theorem C56_compressor_index : forall w : hpwh R, let w' := calcDerivedValues w in
  (w_compIx w' = (-1)%Z /\ forall i, ~ isCompAt (w_hs w') i) \/
  exists i, w_compIx w' = Z.of_nat i /\ isCompAt (w_hs w') i /\ forall j, (i < j)%nat -> ~ isCompAt (w_hs w') j.
Proof. exact C56_compressor_index_fact. Qed.
Print Assumptions C56_compressor_index.

(** The lowest element index names a resistance element; none is lower, and none before it is as low. It is -1 only if every element starts at the very top. *)
Theorem C56_lowest_element : forall w : hpwh R, let w' := calcDerivedValues w in
  (w_lowIx w' = (-1)%Z /\ forall i h, isElemAt (w_hs w') i h -> 1 <= elementHeight h) \/
  exists i h, w_lowIx w' = Z.of_nat i /\ isElemAt (w_hs w') i h /\
    forall j h', isElemAt (w_hs w') j h' -> elementHeight h <= elementHeight h' /\ ((j < i)%nat -> elementHeight h < elementHeight h').
Proof. exact C56_lowest_element_fact. Qed.
Print Assumptions C56_lowest_element.

(** The highest element index names a resistance element; none is higher, and none after it is as high. *)
Theorem C56_highest_element : forall w : hpwh R, let w' := calcDerivedValues w in
  (w_highIx w' = (-1)%Z /\ forall i h, isElemAt (w_hs w') i h -> elementHeight h < 0) \/
  exists i h, w_highIx w' = Z.of_nat i /\ isElemAt (w_hs w') i h /\
    forall j h', isElemAt (w_hs w') j h' -> elementHeight h' <= elementHeight h /\ ((i < j)%nat -> elementHeight h' < elementHeight h).
Proof. exact C56_highest_element_fact. Qed.
Print Assumptions C56_highest_element.

(** The VIP index names the first resistance element marked VIP, or is -1 if there is none. *)
Theorem C56_vip_element : forall w : hpwh R, let w' := calcDerivedValues w in
  (w_vipIx w' = (-1)%Z /\ forall i h, isElemAt (w_hs w') i h -> h_vip h = false) \/
  exists i h, w_vipIx w' = Z.of_nat i /\ isElemAt (w_hs w') i h /\ h_vip h = true /\ forall j h', (j < i)%nat -> isElemAt (w_hs w') j h' -> h_vip h' = false.
Proof. exact C56_vip_element_fact. Qed.
Print Assumptions C56_vip_element.

(** With a valid distribution on every element, an index is -1 only if there is no element at all. *)
Theorem C56_found_if_present : forall w : hpwh R, let w' := calcDerivedValues w in
  (forall i h, isElemAt (w_hs w') i h -> goodDist (h_dist h)) -> (exists i h, isElemAt (w_hs w') i h) -> (0 <= w_lowIx w')%Z /\ (0 <= w_highIx w')%Z.
Proof. exact C56_found_if_present_fact. Qed.
Print Assumptions C56_found_if_present.

(** Nothing but derived quantities changes, and deriving twice is deriving once. *)
Theorem C56_derived_only : forall w : hpwh R, let w' := calcDerivedValues w in
  map h_type (w_hs w') = map h_type (w_hs w) /\ map h_dist (w_hs w') = map h_dist (w_hs w) /\ map h_turnOn (w_hs w') = map h_turnOn (w_hs w) /\
  map h_power (w_hs w') = map h_power (w_hs w) /\ t_Ts (w_tank w') = t_Ts (w_tank w) /\ t_volume (w_tank w') = t_volume (w_tank w) /\
  w_setpoint w' = w_setpoint w /\ Forall (fun h => h_depresses h = match h_type h with TCompressor => true | TResistance => false end) (w_hs w') /\
  calcDerivedValues w' = w'.
Proof. exact C56_derived_only_fact. Qed.
Print Assumptions C56_derived_only.

Example C56_example : let w' := calcDerivedValues (set_w_compIx 0 (set_w_lowIx 0 (exUnit (T:=R) [20; 20; 20; 20]))) in
  w_compIx w' = 2%Z /\ w_lowIx w' = 1%Z /\ w_highIx w' = 0%Z /\ w_vipIx w' = 0%Z /\ isElemAt (w_hs w') 1 (deriveHS 4 (exHS TResistance false None exLower [] [] 0)).
Proof. exact C56_example_fact. Qed.

(** Configuration builds such a list; every other way of sorting the same pairs by position is one too. *)
Theorem C57_map_lists_elements_in_order : forall w : hpwh R, let w' := calcDerivedValues w in
  mapOK (w_hs w') (w_resMap w') /\
  forall m, Permutation m (w_resMap w') -> StronglySorted (fun a b => (snd a <= snd b)%Z) m -> mapOK (w_hs w') m.
Proof. exact C57_map_lists_elements_in_order_fact. Qed.
Print Assumptions C57_map_lists_elements_in_order.

(** Higher position numbers mean higher elements. *)
Theorem C57_position_is_height : forall h : hsrc R, 0 <= elementHeight h ->
  IZR (position h) <= 12 * elementHeight h < IZR (position h) + 1 /\ forall h', 0 <= elementHeight h' -> elementHeight h <= elementHeight h' -> (position h <= position h')%Z.
Proof. exact C57_position_is_height_fact. Qed.
Print Assumptions C57_position_is_height.

(** Setting the capacity of the which-th element from the bottom succeeds, sets the power of exactly the elements at its position and changes nothing else. *)
Theorem C57_set_capacity : forall (w : hpwh R) p which, mapOK (w_hs w) (w_resMap w) -> w_canScale w = true -> 0 <= p -> (which < numRes w)%nat ->
  setResistanceCapacity p (Z.of_nat which) U_KW w =
  (Ok tt, set_w_hs (map (fun h => if atPos (snd (nth which (w_resMap w) (0, 0)%Z)) h then set_h_power p h else h) (w_hs w)) w).
Proof. exact C57_set_capacity_fact. Qed.
Print Assumptions C57_set_capacity.

(** Reading the capacity of the which-th element gives the total power of the elements at its position. *)
Theorem C57_get_capacity : forall (w : hpwh R) which, mapOK (w_hs w) (w_resMap w) -> (which < numRes w)%nat ->
  getResistanceCapacity (Z.of_nat which) U_KW w = Ok (Rsum (map h_power (filter (atPos (snd (nth which (w_resMap w) (0, 0)%Z))) (w_hs w)))).
Proof. exact C57_get_capacity_fact. Qed.
Print Assumptions C57_get_capacity.

(** So what is read back after setting p is p times the number of elements at that position. *)
Theorem C57_read_back : forall (w w' : hpwh R) p which, mapOK (w_hs w) (w_resMap w) -> w_canScale w = true -> 0 <= p -> (which < numRes w)%nat ->
  setResistanceCapacity p (Z.of_nat which) U_KW w = (Ok tt, w') ->
  getResistanceCapacity (Z.of_nat which) U_KW w' = Ok (INR (length (filter (atPos (snd (nth which (w_resMap w) (0, 0)%Z))) (w_hs w))) * p).
Proof. exact C57_read_back_fact. Qed.
Print Assumptions C57_read_back.

(** With -1 all elements are set, and reading with -1 gives the total. *)
Theorem C57_all_elements : forall (w : hpwh R) p, w_canScale w = true -> 0 <= p -> (0 < numRes w)%nat ->
  setResistanceCapacity p (-1) U_KW w = (Ok tt, set_w_hs (map (fun h => if isRes h then set_h_power p h else h) (w_hs w)) w) /\
  getResistanceCapacity (-1) U_KW w = Ok (Rsum (map h_power (filter isRes (w_hs w)))).
Proof. exact C57_all_elements_fact. Qed.
Print Assumptions C57_all_elements.

Example C57_example : let w := calcDerivedValues (exUnit (T:=R) [20; 20; 20; 20]) in
  mapOK (w_hs w) (w_resMap w) /\ w_canScale w = true /\ numRes w = 2%nat.
Proof. exact C57_example_fact. Qed.

(** A capacity query changes nothing, except that the setpoint is not restored if it is not itself a feasible one. *)
Theorem C58_query_effect : forall (w w' : hpwh R) air i o pu tu c, getCompressorCapacity air i o pu tu w = (Ok c, w') ->
  (exists s, w' = set_w_setpoint s w) /\ (forall m, isNewSetpointPossible (w_setpoint w) U_C w = Ok (true, m) -> w' = w).
Proof. exact C58_query_effect_fact. Qed.
Print Assumptions C58_query_effect.

(** After setting the compressor capacity at some temperatures, the query at those temperatures returns the value set. *)
Theorem C58_round_trip : forall (w w' : hpwh R) new air i o pu tu, setCompressorOutputCapacity new air i o pu tu w = (Ok tt, w') ->
  exists w'', getCompressorCapacity air i o pu tu w' = (Ok new, w'').
Proof. exact C58_round_trip_fact. Qed.
Print Assumptions C58_round_trip.

(** Scaling the capacity multiplies the output at every condition by the factor and leaves the COP alone. *)
Theorem C58_scaling : forall (w w' : hpwh R) k, setScaleCapacityCOP k 1 w = (Ok tt, w') ->
  exists h h', compressor w = Ok h /\ compressor w' = Ok h' /\
  forall air x p, getPerformance w h air x = Ok p -> exists p', getPerformance w' h' air x = Ok p' /\ p_out p' = k * p_out p /\ p_cop p' = p_cop p /\ (h_rdPwr h <= 0 -> p_in p' = k * p_in p).
Proof. exact C58_scaling_fact. Qed.
Print Assumptions C58_scaling.

(** The natural claim that a query never changes the setpoint fails for such a unit. *)
Theorem C58_query_keeps_setpoint_refuted : exists (w w' : hpwh R) air i o pu tu c,
  getCompressorCapacity air i o pu tu w = (Ok c, w') /\ w_setpoint w' <> w_setpoint w.
Proof. exact C58_query_keeps_setpoint_refuted_fact. Qed.
Print Assumptions C58_query_keeps_setpoint_refuted.

Example C58_example : exists w', setCompressorOutputCapacity (T:=float) (fofZ 4) (fofZ 20) (fofZ 15) (fofZ 50) U_KW U_C (exUnit (map fofZ [20; 30; 45; 50]%Z)) = (Ok tt, w') /\
  fst (getCompressorCapacity (fofZ 20) (fofZ 15) (fofZ 50) U_KW U_C w') = Ok (fofZ 4).
Proof. exact C58_example_fact. Qed.

(** The fraction of a weighted temperature logic is the mean height of its weight plus half a twelfth; of the bottom node one n-th; of the top node one. *)
Theorem C72_logic_fraction : forall (w : hpwh R) s d dec a c hts ctl,
  (goodDist d -> l_nodeWeightAvgFract w (TempLogic s (mkdist DWeighted d) dec a c hts ctl) = meanFraction d + 1 / 24 /\ 0 < meanFraction d < 1) /\
  l_nodeWeightAvgFract w (TempLogic s (mkdist DBottom d) dec a c hts ctl) = 1 / INR (length (t_Ts (w_tank w))) /\
  l_nodeWeightAvgFract w (TempLogic s (mkdist DTop d) dec a c hts ctl) = 1.
Proof. exact C72_logic_fraction_fact. Qed.
Print Assumptions C72_logic_fraction.

(** For a logic on the nodes k to m of twelve this is the mean node number over twelve. *)
Theorem C72_node_range : forall (w : hpwh R) s k m dc a c hts ctl, (1 < k)%nat -> (k <= m)%nat -> (m < 12)%nat ->
  l_nodeWeightAvgFract w (TempLogic s (mkdist DWeighted [((INR k - 1) / 12, 0); (INR m / 12, 1); (1, 0)]) dc a c hts ctl) = (INR k + INR m) / 2 / 12.
Proof. exact C72_node_range_fact. Qed.
Print Assumptions C72_node_range.

(** The fractions are defined exactly for models with a compressor that do not use state-of-charge control. *)
Theorem C72_rejected : forall w : hpwh R, (hasCompressor w = false \/ w_usesSoC w = true) -> exists e, getSizingFractions w = Err e.
Proof. exact C72_rejected_fact. Qed.
Print Assumptions C72_rejected.

(** The aquastat fraction is the least fraction of a turn-on logic (at most one) and lies in (0,1]; the usable fraction lies in [-1/24, 1], and in [0,1] unless a shut-off logic is top-heavy. *)
Theorem C72_ranges : forall (w : hpwh R) a u, t_Ts (w_tank w) <> [] -> INR (length (t_Ts (w_tank w))) <= 10000 -> getSizingFractions w = Ok (a, u) ->
  exists h, compressor w = Ok h /\
  (Forall soundTempLogic (h_turnOn h) -> Forall soundTempLogic (h_shutOff h) ->
    0 < a <= 1 /\ (forall l, In l (h_turnOn h) -> a <= l_nodeWeightAvgFract w l) /\ (a = 1 \/ exists l, In l (h_turnOn h) /\ a = l_nodeWeightAvgFract w l) /\
    - (1 / 24) <= u <= 1 /\ (Forall notTopHeavy (h_shutOff h) -> 0 <= u) /\ 1 / 10000 <= Rabs (a - (1 - u))).
Proof. exact C72_ranges_fact. Qed.
Print Assumptions C72_ranges.

(** The natural claim that the usable fraction is never negative fails for a top-heavy shut-off logic. *)
Theorem C72_usable_refuted : exists (w : hpwh R) h a u, compressor w = Ok h /\ Forall soundTempLogic (h_turnOn h) /\ Forall soundTempLogic (h_shutOff h) /\
  getSizingFractions w = Ok (a, u) /\ u < 0.
Proof. exact C72_usable_refuted_fact. Qed.
Print Assumptions C72_usable_refuted.

Example C72_example : exists a u, getSizingFractions (T:=float) (exUnit (map fofZ [20; 20; 20; 20]%Z)) = Ok (a, u) /\ PrimFloat.ltb (fofZ 0) u = true.
Proof. exact C72_example_fact. Qed.
