(** Properties of copying a simulator.  Statements only; proofs in CopyingFacts.v. *)

From Coq Require Import ZArith String List Bool Reals Lra Lia Floats.
From Verif Require Import Num FNum Base Units Utils Types TankM Logic HeatSrc Step Setters Copy Spec SpecState.
From Verif Require Import RList FrameProofs SimFrame TankProofs EnergyProofs StepEnergy EnergyFacts Example.
From Verif Require Import CopyingFacts.
Import ListNotations.
Local Open Scope R_scope.

(** C70: after [d = s] both objects have the same tank and the same heat sources, and [d] has taken over
    the setpoint, the reported figures, the location temperature and the control flags; the top-off timer,
    the step length, the inlet temperature, the state of charge, the indices of compressor and elements,
    the permissions to move the setpoint or to scale and the map of elements stay what they were in [d];
    nothing about [s] itself changes *)
Theorem C70_members : forall (m : heap R) (d s : nat), d <> s ->
  let m' := assign d s m in
  w_tank (view m' d) = w_tank (view m s) /\ w_hs (view m' d) = w_hs (view m s) /\
  copied (view m' d) = copied (view m s) /\ kept (view m' d) = kept (view m d) /\
  view m' s = view m s.
Proof. exact C70_members_fact. Qed.
Print Assumptions C70_members.

(** C70: sharing is lasting: whatever a call on either of the two objects does, successfully or not, the
    two keep one and the same tank and one and the same list of sources, so everything the other reports
    about temperatures, stored heat, outlet temperature, energy used and delivered per source and run
    times changes with it *)
Theorem C70_shared : forall (m : heap R) (d s : nat) (cs : list (bool * M (hpwh R) unit)),
  let m' := execs (map (fun c : bool * M (hpwh R) unit => Call (if fst c then d else s) (snd c)) cs) (assign d s m) in
  w_tank (view m' s) = w_tank (view m' d) /\ w_hs (view m' s) = w_hs (view m' d).
Proof. exact C70_shared_fact. Qed.
Print Assumptions C70_shared.

(** C70: a call on the copy is a call on the original: the tank and the sources it leaves in the copy are
    the tank and the sources of the original *)
Theorem C70_writes_through : forall (A : Type) (m : heap R) (d s : nat) (f : M (hpwh R) A) r m',
  call d f (assign d s m) = (r, m') ->
  exists w, f (view (assign d s m) d) = (r, w) /\ w_tank (view m' s) = w_tank w /\ w_hs (view m' s) = w_hs w.
Proof. exact C70_writes_through_fact. Qed.
Print Assumptions C70_writes_through.

(** C70: the pointers: in every program, the object a unit's logics point to is for ever the one that was
    pointed to at first; and after [d = s] the tank and the sources of [s] point to [d] until some object
    is again assigned from one that shares them *)
Theorem C70_logic_pointer : forall (m : heap R) (cs : list (cmd R)), u_logic (execs cs m) = u_logic m.
Proof. exact C70_logic_pointer_fact. Qed.
Print Assumptions C70_logic_pointer.

Theorem C70_owner_pointer : forall (m : heap R) (d s : nat), d <> s ->
  let m' := assign d s m in
  u_owner m' (o_unit m' s) = d /\ u_owner m' (o_unit m' d) = d /\
  forall i (f : M (hpwh R) unit), u_owner (exec m' (Call i f)) = u_owner m' /\ u_owner (exec m' (Destroy i)) = u_owner m'.
Proof. exact C70_owner_pointer_fact. Qed.
Print Assumptions C70_owner_pointer.

(** C70: copying an object that is on its own leaves neither the copy nor the original on its own, and no
    later call, destruction or assignment, unless it is to the copy, puts the copy on its own again *)
Theorem C70_neither : forall (m : heap R) (d s : nat), d <> s -> onItsOwn m s ->
  ~ onItsOwn (assign d s m) s /\
  forall cs, (forall c, In c cs -> match c with Assign d' _ => d' <> d | Construct _ d' _ => d' <> d | _ => True end) ->
    ~ onItsOwn (execs cs (assign d s m)) d.
Proof. exact C70_neither_fact. Qed.
Print Assumptions C70_neither.

(** C70: the thermostat of the copy follows the setpoint of the original: when the logics of the unit point
    to [s], no call on [d] that leaves the tank alone changes whether a logic of its sources is met,
    setSetpoint included; a tank-relative logic is met exactly when the tank value compares so with the
    setpoint of [s] less the decision point *)
Theorem C70_thermostat : forall (m : heap R) (d s : nat) (f : M (hpwh R) unit) l,
  d <> s -> o_alive m s = true -> u_logic m (o_unit m s) = s ->
  (forall w r w', f w = (r, w') -> w_tank w' = w_tank w) ->
  let m' := assign d s m in let m'' := snd (call d f m') in
  logicMet m'' d l = logicMet m' d l /\
  (forall n di dp c ht cs v, l = TempLogic n di dp false c ht cs -> averageT_distribution di (w_tank (view m s)) = Ok v ->
     logicMet m'' d l = Ok (compare c v (w_setpoint (view m s) - dp))).
Proof. exact C70_thermostat_fact. Qed.
Print Assumptions C70_thermostat.

(** C70: the losses of the original follow the step length of the copy: changing the step length of [s]
    after [d = s] does not change what a step of [s] does to its tank *)
Theorem C70_step_length : forall fuel (m : heap R) (d s : nat) (g : hpwh R -> hpwh R) draw inT amb,
  d <> s -> (forall w, w_tank (g w) = w_tank w /\ w_hs (g w) = w_hs w) ->
  let m' := assign d s m in
  let a := updateTank fuel m' s draw inT amb in
  let b := updateTank fuel (snd (call s (modify g) m')) s draw inT amb in
  fst a = fst b /\ w_tank (view (snd a) s) = w_tank (view (snd b) s).
Proof. exact C70_step_length_fact. Qed.
Print Assumptions C70_step_length.

(** C70: neither object may outlive the other: once the original is gone, asking whether a logic of the
    copy is met is undefined; once the copy is gone, a step of the original is undefined, whether or not
    the original had been on its own before *)
Theorem C70_dangling : forall fuel (m : heap R) (d s : nat) (l : logic R) draw inT amb x, d <> s -> onItsOwn m s ->
  (exists e, logicMet (destroy s (assign d s m)) d l = UB e) /\
  (exists e, stepObj fuel d x (destroy s (assign d s m)) = (UB e, destroy s (assign d s m))) /\
  (exists e, updateTank fuel (destroy d (assign d s m)) s draw inT amb = (UB e, destroy d (assign d s m))) /\
  (exists e, stepObj fuel s x (destroy d (assign d s m)) = (UB e, destroy d (assign d s m))).
Proof. exact C70_dangling_fact. Qed.
Print Assumptions C70_dangling.

(** C70: what a copy-constructed object says about its compressor is whatever its storage held *)
Theorem C70_constructed : forall (m : heap R) (d s : nat) (junk : hpwh R), d <> s ->
  hasCompressor (view (construct junk d s m) d) = hasCompressor junk /\
  kept (view (construct junk d s m) d) = kept junk /\ w_hs (view (construct junk d s m) d) = w_hs (view m s).
Proof. exact C70_constructed_fact. Qed.
Print Assumptions C70_constructed.

(** C70: assigning an object to itself changes nothing *)
Theorem C70_self : forall (m : heap R) (i : nat), assign i i m = m.
Proof. exact C70_self_fact. Qed.
Print Assumptions C70_self.

(** C70: it is not so that a copy can be used without disturbing the original: in floating point, one
    step of the copy with a draw changes the stored heat the original reports *)
Theorem C70_refuted :
  ~ (forall (m m' : heap PrimFloat.float) d s fuel x, d <> s -> stepObj fuel d x (assign d s m) = (Ok tt, m') ->
       heatContent (w_tank (view m' s)) = heatContent (w_tank (view m s))).
Proof. exact C70_refuted_fact. Qed.
Print Assumptions C70_refuted.

(** hypotheses of the copying theorems: object 0 is on its own, and so is object 1 before the copy *)
Example C70_ex_own : onItsOwn (exHeap [30; 45; 52] [20; 20; 20]) 0 /\ onItsOwn (exHeap [30; 45; 52] [20; 20; 20]) 1 /\
  o_alive (exHeap [30; 45; 52] [20; 20; 20]) 0 = true.
Proof. exact C70_ex_own_fact. Qed.

(** raising the setpoint of the copy to 90 leaves its lower logic unmet, raising that of the original meets
    it: the lower logic of the compressor looks for an average below setpoint - 5 in a tank at 52 *)
Example C70_ex_thermostat :
  let m := assign 1 0 (exHeap [52; 52; 52]%float [20; 20; 20]%float) in
  let l := exOn exLower 5%float in
  logicMet m 1 l = Ok false /\
  logicMet (snd (call 1 (modify (set_w_setpoint 90%float)) m)) 1 l = Ok false /\
  logicMet (snd (call 0 (modify (set_w_setpoint 90%float)) m)) 1 l = Ok true.
Proof. exact C70_ex_thermostat_fact. Qed.

(** an hour of losses for the copy is an hour of losses for the original, whatever step length the
    original has been given *)
Example C70_ex_step_length :
  let m := assign 1 0 (exHeap [52; 52; 52]%float [20; 20; 20]%float) in
  let hour := fun w : hpwh PrimFloat.float => set_w_hrStep 1%float (set_w_secStep 3600%float w) in
  let heat := fun m : heap PrimFloat.float => heatContent (w_tank (view m 0)) in
  let a := updateTank 1000 m 0 0%float 10%float 20%float in
  let b := updateTank 1000 (snd (call 0 (modify hour) m)) 0 0%float 10%float 20%float in
  let c := updateTank 1000 (snd (call 1 (modify hour) m)) 0 0%float 10%float 20%float in
  fst a = Ok tt /\ fst b = Ok tt /\ fst c = Ok tt /\
  PrimFloat.eqb (heat (snd a)) (heat (snd b)) = true /\ PrimFloat.ltb (heat (snd c) + 100)%float (heat (snd a)) = true.
Proof. exact C70_ex_step_length_fact. Qed.

(** C70: a heat source can be assigned exactly when the source it is assigned from has no backup, no
    companion and no follower; when it cannot, on/off state, run time, energies and the VIP flag have
    been overwritten all the same *)
Theorem C70_source : forall (s d : hsrc R) r d', assignHS s d = (r, d') ->
  ((h_backup s = None /\ h_companion s = None /\ h_followed s = None) <-> r = Ok tt) /\
  (h_on d', h_runtime d', h_eIn d', h_eOut d', h_vip d') = (h_on s, h_runtime s, h_eIn s, h_eOut s, h_vip s) /\
  (r = Ok tt -> (h_turnOn d', h_shutOff d', h_standby d', h_dist d', h_minT d', h_maxT d') = (h_turnOn s, h_shutOff s, h_standby s, h_dist s, h_minT s, h_maxT s)) /\
  (r <> Ok tt -> (h_turnOn d', h_shutOff d', h_standby d', h_dist d', h_minT d', h_maxT d') = (h_turnOn d, h_shutOff d, h_standby d, h_dist d, h_minT d, h_maxT d)) /\
  h_locked d' = h_locked d.
Proof. exact C70_source_fact. Qed.
Print Assumptions C70_source.

(** C70: an assigned condenser keeps its own defrost switch, so one assigned from a condenser that derates
    its efficiency in the cold performs like that one with defrost switched off; its own standby power and
    limit of water temperature in the cold stay as well *)
Theorem C70_condenser : forall (w : hpwh R) (s d d' : hsrc R) ext cond, assignCond s d = (Ok tt, d') ->
  getPerformance w d' ext cond = getPerformance w (set_h_doDefrost (h_doDefrost d) s) ext cond /\
  (h_mlOut d', h_mlAir d', h_stbyPwr d') = (h_mlOut d, h_mlAir d, h_stbyPwr d).
Proof. exact C70_condenser_fact. Qed.
Print Assumptions C70_condenser.

(** C70: assigning a tank copies temperatures, volume and loss coefficients but not the water per node: from
    a sound tank of other node capacity the assigned tank reports that tank's heat content, but is no
    longer sound: its node capacities do not add up to that of its volume *)
Theorem C70_tank : forall s d : tank R, wf_tank s -> t_nodeCp d <> t_nodeCp s ->
  heatContent (assignTank s d) = heatContent s /\ ~ wf_tank (assignTank s d).
Proof. exact C70_tank_fact. Qed.
Print Assumptions C70_tank.

(** the sources of the example unit: the element can be assigned, the compressor, having a backup, cannot *)
Example C70_ex_source :
  fst (assignHS (exHS TResistance true None exUpper [] [] 2) (exHS TResistance false None exLower [] [] 0)) = (Ok tt : outc unit) /\
  (exists e, fst (assignHS (nth 2 exSources (exHS TCompressor false None exLower [] [] 0)) (exHS (T:=R) TCompressor false None exLower [] [] 0)) = Err e) /\
  fst (assignCond (exHS (T:=R) TCompressor false None exLower [] [] 0) (exHS TCompressor false None exUpper [] [] 2)) = Ok tt.
Proof. exact C70_ex_source_fact. Qed.

(** two sound tanks of the same volume with three and with four nodes *)
Example C70_ex_tank : wf_tank (exTankG (T:=R) [30; 45; 52]) /\ t_nodeCp (exTankG (T:=R) [30; 45; 52; 53]) <> t_nodeCp (exTankG [30; 45; 52]).
Proof. exact C70_ex_tank_fact. Qed.
