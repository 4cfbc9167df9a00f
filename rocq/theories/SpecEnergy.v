(** Vocabulary for the energy properties of heat sources and whole steps. *)

From Coq Require Import ZArith List Bool Reals.
From Verif Require Import Num Base Units Types Logic HeatSrc Spec SpecState SpecDist.
Import ListNotations.
Local Open Scope R_scope.

(** kJ put into the water in this step, as reported by the sources (their energies are in kWh) *)
Definition deliveredKJ (hs : list (hsrc R)) : R := 3600 * Rsum (map h_eOut hs).

(** an external multi-pass condenser *)
Definition multiPass (h : hsrc R) : Prop :=
  h_type h = TCompressor /\ h_config h = External /\ h_multipass h = true.

(** what is required of a heat source of a tank with [n] nodes; [air] is the temperature of the air it
    draws heat from, [D] the water temperatures at which its compressor may have to work *)
Record srcOK (n : nat) (air : R) (D : R -> Prop) (h : hsrc R) : Prop := {
  (* elements: rated power not negative *)
  so_power : h_type h = TResistance -> 0 <= h_power h;
  (* compressors: at these water temperatures the performance function does not predict a negative output *)
  so_perf : h_type h = TCompressor -> forall (w : hpwh R) cond p, D cond -> getPerformance w h air cond = Ok p -> 0 <= p_out p;
  (* elements, wrapped and submerged condensers: non-negative weights over ascending heights, some positive *)
  so_dist : h_type h = TResistance \/ h_config h <> External -> goodDist (h_dist h);
  (* wrapped condensers: at most 10000 nodes *)
  so_nodes : h_config h = Wrapped -> INR n <= 10000;
  (* external condensers: the outlet is not above the inlet *)
  so_ports : h_config h = External -> (h_extOut h <= h_extIn h)%Z;
  (* multi-pass: there is a flow; single-pass: the shut-off logics never ask for less than no heat *)
  so_flow : h_config h = External -> h_multipass h = true -> 0 < h_mpFlow h;
  so_fract : h_config h = External -> h_multipass h = false -> forall (w : hpwh R) f, fractToMeet w h = Ok f -> 0 <= f
}.

(** [D] holds at the water temperatures of the profile [Ts] and between them *)
Definition domOn (D : R -> Prop) (Ts : list R) : Prop := exists lo hi, within lo hi Ts /\ forall c, lo <= c <= hi -> D c.
(** [D] holds from the coldest water of the profile [Ts] up *)
Definition domUp (D : R -> Prop) (Ts : list R) : Prop := exists lo, (forall x, In x Ts -> lo <= x) /\ forall c, lo <= c -> D c.
(** [D] holds between the coldest water of [Ts] and the hotter of its hottest water and [m] *)
Definition domTo (D : R -> Prop) (m : R) (Ts : list R) : Prop :=
  exists lo hi, m <= hi /\ within lo hi Ts /\ forall c, lo <= c <= hi -> D c.
(** [D] holds at all water temperatures that heating can bring about: an external multi-pass condenser heats
    beyond the setpoint, the others do not *)
Definition reach (D : R -> Prop) (w : hpwh R) : Prop :=
  domUp D (t_Ts (w_tank w)) \/
  Forall (fun h => ~ multiPass h) (w_hs w) /\ domTo D (w_setpoint w) (t_Ts (w_tank w)).

(** only the heat sources' outputs, node temperatures and records of the external heating differ; the
    heat stored in the tank grew by what the sources report *)
Record heatRel (w w' : hpwh R) : Prop := {
  hr_tank : w_tank w' = set_t_Ts (t_Ts (w_tank w')) (w_tank w);
  hr_len : length (t_Ts (w_tank w')) = length (t_Ts (w_tank w));
  hr_heat : tankHeat (w_tank w') - tankHeat (w_tank w) = deliveredKJ (w_hs w') - deliveredKJ (w_hs w);
  hr_sp : w_setpoint w' <= w_setpoint w;
  hr_min : w_minStep w' = w_minStep w;
  hr_lo : forall lo, (forall x, In x (t_Ts (w_tank w)) -> lo <= x) -> forall x, In x (t_Ts (w_tank w')) -> lo <= x;
  hr_hi : Forall (fun h => ~ multiPass h) (w_hs w) -> forall hi, w_setpoint w <= hi ->
          (forall x, In x (t_Ts (w_tank w)) -> x <= hi) -> forall x, In x (t_Ts (w_tank w')) -> x <= hi;
  hr_multi : Forall (fun h => ~ multiPass h) (w_hs w) -> Forall (fun h => ~ multiPass h) (w_hs w');
  hr_ge : Forall2 (fun h h' => h_eOut h <= h_eOut h') (w_hs w) (w_hs w')
}.

(** the states in which sources are allowed to run *)
Record heatInv (air : R) (D : R -> Prop) (w : hpwh R) : Prop := {
  hi_wf : wf_tank (w_tank w);
  hi_mix : t_doMix (w_tank w) = true;
  hi_strat : stratified (t_Ts (w_tank w));
  hi_src : Forall (srcOK (length (t_Ts (w_tank w))) air D) (w_hs w);
  hi_reach : reach D w;
  hi_rt : Forall (fun h => 0 <= h_runtime h <= w_minStep w) (w_hs w)
}.

(** extra heat (W per entry) that adds heat: a positive total or no negative entry *)
Definition extraOK (l : list R) : Prop := 0 < Rsum l \/ forall q, In q l -> 0 <= q.

(** net heat (kJ) brought by the water of a draw: heat of the water that comes in minus heat of the water
    that leaves at temperature [out]; with a heat exchanger ([hx]) all water enters at the first inlet *)
Definition drawnHeat (hx : bool) (draw inT vol2 inT2 out : R) : R :=
  if Rle_dec draw 0 then 0
  else CPWATER * DENSITYWATER *
       (if hx then draw * inT - draw * out else (draw - vol2) * inT + vol2 * inT2 - draw * out).

(** a unit that is ready to be simulated: sizes consistent, ports at existing nodes, inversion mixing on,
    sound heat sources; [air] is the temperature of the air the compressors see, [D] the water temperatures
    at which they may have to work *)
Record unitOK (air : R) (D : R -> Prop) (w : hpwh R) : Prop := {
  uo_wf : wf_tank (w_tank w);
  uo_ports : ports_ok (w_tank w);
  uo_mix : t_doMix (w_tank w) = true;
  uo_src : Forall (srcOK (length (t_Ts (w_tank w))) air D) (w_hs w);
  uo_min : 0 <= w_minStep w
}.
