(** Vocabulary for the properties of whole steps. *)

From Coq Require Import ZArith List Bool Reals.
From Verif Require Import Num Base Units Types Logic HeatSrc Step Spec SpecState SpecDist SpecEnergy.
Import ListNotations.
Local Open Scope R_scope.

(** temperature of the air around the unit as tracked by the unit if temperature depression is modelled *)
Definition locationAir (w : hpwh R) (x : stepIn) : R :=
  if Req_EM_T (w_locT w) UNINITIALIZED_LOCATIONTEMP then i_amb x else w_locT w.
(** temperature of the air the compressors and the tank see in a step *)
Definition sourceAir (w : hpwh R) (x : stepIn) : R := if w_doDepress w then locationAir w x else i_ext x.
Definition tankAir (w : hpwh R) (x : stepIn) : R := if w_doDepress w then locationAir w x else i_amb x.

(** the extra heat (W per entry) given to a step *)
Definition extraList (x : stepIn (T:=R)) : list R := match i_extra x with Some l => l | None => [] end.

(** a logic that can be evaluated; [have] says whether the unit knows its inlet temperature *)
Definition logicReady (have : bool) (l : logic R) : Prop :=
  match l with
  | TempLogic _ d _ _ _ _ _ => d_type d = DWeighted -> goodDist (d_w d)
  | SoCLogic _ _ _ _ constMains _ _ _ => have = true \/ constMains = true
  end.

(** a source (of [k]) that can run: links to existing sources, usable logics, positive power; condensers
    reach the setpoint [sp] and have positive output at the air temperature [air], which is above the range where
    their outlet temperature is limited, and the water temperatures [D]; [ext] says whether external ones are allowed *)
Record srcReadyX (ext : Prop) (k : nat) (have : bool) (sp air : R) (D : R -> Prop) (h : hsrc R) : Prop := {
  sy_backup : forall b, h_backup h = Some b -> (b < k)%nat;
  sy_companion : forall b, h_companion h = Some b -> (b < k)%nat;
  sy_followed : forall b, h_followed h = Some b -> (b < k)%nat;
  sy_on : Forall (logicReady have) (h_turnOn h);
  sy_off : Forall (logicReady have) (h_shutOff h);
  sy_stby : forall l, h_standby h = Some l -> logicReady have l;
  sy_dist : goodDist (h_dist h);
  sy_power : h_type h = TResistance -> 0 < h_power h;
  sy_config : h_type h = TCompressor -> h_config h = External -> ext;
  sy_shrink : h_type h = TCompressor -> h_config h = Wrapped -> h_shrink h <> 0;
  sy_max : h_type h = TCompressor -> sp <= h_maxSet h;
  sy_low : h_type h = TCompressor -> h_mlAir h < air;
  sy_perf : h_type h = TCompressor -> forall (w : hpwh R) cond, D cond -> exists p, getPerformance w h air cond = Ok p /\ 0 < p_out p
}.
Arguments sy_backup {ext k have sp air D h}.   Arguments sy_companion {ext k have sp air D h}. Arguments sy_followed {ext k have sp air D h}.
Arguments sy_on {ext k have sp air D h}.       Arguments sy_off {ext k have sp air D h}.       Arguments sy_stby {ext k have sp air D h}.
Arguments sy_dist {ext k have sp air D h}.     Arguments sy_power {ext k have sp air D h}.     Arguments sy_config {ext k have sp air D h}.
Arguments sy_shrink {ext k have sp air D h}.   Arguments sy_max {ext k have sp air D h}.       Arguments sy_low {ext k have sp air D h}.
Arguments sy_perf {ext k have sp air D h}.
(** without external condensers *)
Definition srcReady := srcReadyX False.

(** state-of-charge control: the compressor's first turn-on logic is a state-of-charge logic *)
Definition socReady (w : hpwh R) : Prop :=
  w_usesSoC w = true -> exists h, (0 <= w_compIx w)%Z /\ nth_error (w_hs w) (Z.to_nat (w_compIx w)) = Some h /\
  exists d a b c e f g i r, h_turnOn h = SoCLogic d a b c e f g i :: r.

(** a unit that can run at the air temperature [air] and the water temperatures [D] *)
Record unitReadyX (ext : Prop) (air : R) (D : R -> Prop) (w : hpwh R) : Prop := {
  rd_src : Forall (srcReadyX ext (length (w_hs w)) (w_haveInletT w) (w_setpoint w) air D) (w_hs w);
  rd_comp : (w_compIx w < Z.of_nat (length (w_hs w)))%Z;
  rd_low : (w_lowIx w < Z.of_nat (length (w_hs w)))%Z;
  rd_vip : (w_vipIx w < Z.of_nat (length (w_hs w)))%Z;
  rd_soc : socReady w
}.
Arguments rd_src {ext air D w}. Arguments rd_comp {ext air D w}. Arguments rd_low {ext air D w}. Arguments rd_vip {ext air D w}. Arguments rd_soc {ext air D w}.
(** one without external condensers *)
Definition unitReady := unitReadyX False.

(** nothing about the unit takes its water out of the range [lo]..[hi]: profile and setpoint are within it, no
    heat exchanger, no multi-pass condenser, and the standby losses of one step are not unstable *)
Record calmUnit (lo hi : R) (w : hpwh R) : Prop := {
  cu_hx : t_hasHX (w_tank w) = false;
  cu_strat : stratified (t_Ts (w_tank w));
  cu_multi : Forall (fun h => ~ multiPass h) (w_hs w);
  cu_Ts : within lo hi (t_Ts (w_tank w));
  cu_sp : w_setpoint w <= hi;
  cu_hr : 0 <= w_hrStep w;
  cu_sec : 0 <= w_secStep w;
  cu_UA : 0 <= t_UA (w_tank w);
  cu_fit : 0 <= t_fitUA (w_tank w);
  cu_top : 0 <= t_fracTop (w_tank w);
  cu_side : 0 <= t_fracSide (w_tank w);
  cu_height : t_nodeHeight (w_tank w) <> 0;
  cu_stable : forall ends : R, ends = (if Nat.eqb (length (t_Ts (w_tank w))) 1 then 2 else 1) ->
     w_hrStep w * (ends * (t_UA (w_tank w) * t_fracTop (w_tank w))
                   + (t_UA (w_tank w) * t_fracSide (w_tank w) + t_fitUA (w_tank w)) / INR (length (t_Ts (w_tank w))))
       / t_nodeCp (w_tank w) <= 1
}.
(** nor do the inputs of a step: ambient air and inlet waters are within the range *)
Record calm (lo hi : R) (x : stepIn) (w : hpwh R) : Prop := {
  ca_unit : calmUnit lo hi w;
  ca_air : lo <= tankAir w x <= hi;
  ca_vol2 : 0 <= i_vol2 x;
  ca_in : 0 < i_draw x -> i_vol2 x < i_draw x -> lo <= w_inletT w <= hi;
  ca_in2 : 0 < i_draw x -> 0 < i_vol2 x -> lo <= i_inT2 x <= hi
}.
(** [D] holds at all water temperatures that can occur in the step *)
Definition covered (D : R -> Prop) (x : stepIn) (w : hpwh R) : Prop :=
  (forall c, D c) \/ exists lo hi, (forall c, lo <= c <= hi -> D c) /\ calm lo hi x w.
(** nor do the unit and the inputs of a run *)
Definition calmRun (rows : list (rowIn (T:=R))) (lo hi : R) (w : hpwh R) : Prop :=
  calmUnit lo hi w /\ w_doDepress w = false /\ forall r, In r rows -> lo <= r_amb r <= hi /\ lo <= r_inletT r <= hi.
(** [D] holds at all water temperatures that can occur in a run *)
Definition coveredRun (D : R -> Prop) (rows : list (rowIn (T:=R))) (w : hpwh R) : Prop :=
  (forall c, D c) \/ exists lo hi, (forall c, lo <= c <= hi -> D c) /\ calmRun rows lo hi w.
