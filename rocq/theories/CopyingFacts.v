(** Proofs of the theorems stated in PropsCopying.v: Properties of copying a simulator *)

From Coq Require Import ZArith String List Bool Reals Lra Lia Floats.
From Verif Require Import Num FNum Base Units Utils Types TankM Logic HeatSrc Step Setters Copy Spec SpecState.
From Verif Require Import RList FrameProofs SimFrame TankProofs EnergyProofs StepEnergy EnergyFacts Example.
Import ListNotations.
Local Open Scope R_scope.
(** ** Memory lemmas *)
Lemma upd_eq {A} (f : nat -> A) i a : upd f i a i = a. Proof. unfold upd. now rewrite Nat.eqb_refl. Qed.
Lemma upd_ne {A} (f : nat -> A) i a j : j <> i -> upd f i a j = f j.
Proof. unfold upd. intros NE. apply Nat.eqb_neq in NE. now rewrite NE. Qed.
Section Gen.
  Context {T : Type} {N : Num T}.
  Lemma view_tank (m : heap T) i : w_tank (view m i) = u_tank m (o_unit m i). Proof. reflexivity. Qed.
  Lemma view_hs (m : heap T) i : w_hs (view m i) = u_hs m (o_unit m i). Proof. reflexivity. Qed.
  Lemma view_put_tank (m : heap T) i j w : o_unit m j = o_unit m i -> w_tank (view (put m i w) j) = w_tank w.
  Proof. intros E. rewrite view_tank. cbn [o_unit u_tank put]. rewrite E. apply upd_eq. Qed.
  Lemma view_put_hs (m : heap T) i j w : o_unit m j = o_unit m i -> w_hs (view (put m i w) j) = w_hs w.
  Proof. intros E. rewrite view_hs. cbn [o_unit u_hs put]. rewrite E. apply upd_eq. Qed.
  Lemma assign_unit (m : heap T) d s : o_unit (assign d s m) d = o_unit m s /\ o_unit (assign d s m) s = o_unit m s.
  Proof.
    unfold assign. destruct (Nat.eqb_spec d s) as [->|NE]; [auto|]. cbn [o_unit]. rewrite upd_eq, upd_ne; auto.
  Qed.
  Lemma construct_unit (m : heap T) j d s : o_unit (construct j d s m) d = o_unit m s /\ o_unit (construct j d s m) s = o_unit m s.
  Proof. unfold construct. match goal with |- context[assign d s ?M] => destruct (assign_unit M d s) as (A & B) end. rewrite A, B. auto. Qed.
  Lemma call_put {A} i (f : M (hpwh T) A) m r m' : call i f m = (r, m') -> exists w, f (view m i) = (r, w) /\ m' = put m i w.
  Proof. unfold call. destruct (f (view m i)) as [r0 w]. intros E; injection E as <- <-. eauto. Qed.
End Gen.

(** the members an assignment copies, and those it does not *)
Definition copied {T} (w : hpwh T) :=
  (w_heating w, w_setpoint w, w_condIn w, w_condOut w, w_extVol w, w_envE w, w_stbyE w, w_doDepress w, w_locT w,
   w_prevDR w, w_timerLimit w, w_usesSoC w, w_storage w).
Definition kept {T} (w : hpwh T) :=
  (w_timer w, w_setFixed w, w_canScale w, (w_minStep w, w_secStep w, w_hrStep w), (w_inletT w, w_haveInletT w),
   (w_SoC w, w_targetSoC w), (w_compIx w, w_lowIx w, w_highIx w, w_vipIx w), w_resMap w, w_maxDep w, w_extraE w).

Lemma C70_members_fact : forall (m : heap R) (d s : nat), d <> s ->
  let m' := assign d s m in
  w_tank (view m' d) = w_tank (view m s) /\ w_hs (view m' d) = w_hs (view m s) /\
  copied (view m' d) = copied (view m s) /\ kept (view m' d) = kept (view m d) /\
  view m' s = view m s.
Proof.
  intros m d s NE m'. destruct (assign_unit m d s) as (U1 & U2). fold m' in U1, U2.
  assert (TT : u_tank m' = u_tank m) by (unfold m', assign; destruct (Nat.eqb d s); reflexivity).
  assert (TH : u_hs m' = u_hs m) by (unfold m', assign; destruct (Nat.eqb d s); reflexivity).
  assert (MD : o_mem m' d = copyMembers (o_mem m s) (o_mem m d)).
  { unfold m', assign. apply Nat.eqb_neq in NE. rewrite NE. cbn [o_mem]. apply upd_eq. }
  assert (MS : o_mem m' s = o_mem m s).
  { unfold m', assign. destruct (Nat.eqb_spec d s); [reflexivity|]. cbn [o_mem]. apply upd_ne. auto. }
  unfold view. rewrite U1, U2, TT, TH, MD, MS. splits; reflexivity.
Qed.

Lemma C70_shared_fact : forall (m : heap R) (d s : nat) (cs : list (bool * M (hpwh R) unit)),
  let m' := execs (map (fun c : bool * M (hpwh R) unit => Call (if fst c then d else s) (snd c)) cs) (assign d s m) in
  w_tank (view m' s) = w_tank (view m' d) /\ w_hs (view m' s) = w_hs (view m' d).
Proof.
  intros m d s cs m'. cut (o_unit m' s = o_unit m' d); [intros E; rewrite !view_tank, !view_hs, E; auto|].
  unfold m'. destruct (assign_unit m d s) as (U1 & U2). rewrite <- U2 in U1. symmetry in U1. revert U1.
  generalize (assign d s m). clear. induction cs as [|[b f] cs IH]; intros m E; [exact E|].
  unfold execs in *. cbn [map fold_left exec fst snd]. apply IH.
  destruct (call _ f m) as [r m1] eqn:C. apply call_put in C as (w & _ & ->). exact E.
Qed.

Lemma C70_writes_through_fact : forall (A : Type) (m : heap R) (d s : nat) (f : M (hpwh R) A) r m',
  call d f (assign d s m) = (r, m') ->
  exists w, f (view (assign d s m) d) = (r, w) /\ w_tank (view m' s) = w_tank w /\ w_hs (view m' s) = w_hs w.
Proof.
  intros A m d s f r m' C. apply call_put in C as (w & E & ->). exists w. split; [exact E|].
  destruct (assign_unit m d s) as (U1 & U2). split; [apply view_put_tank|apply view_put_hs]; congruence.
Qed.

Lemma C70_logic_pointer_fact : forall (m : heap R) (cs : list (cmd R)), u_logic (execs cs m) = u_logic m.
Proof.
  intros m cs. revert m. induction cs as [|c cs IH]; intros m; [reflexivity|]. unfold execs in *. cbn [fold_left]. rewrite IH.
  destruct c as [d s|j d s|i|i f]; cbn [exec]; unfold construct, assign, destroy.
  - destruct (Nat.eqb d s); reflexivity.
  - destruct (Nat.eqb d s); reflexivity.
  - reflexivity.
  - destruct (call i f m) as [r m1] eqn:C. apply call_put in C as (w & _ & ->). reflexivity.
Qed.
Lemma C70_owner_pointer_fact : forall (m : heap R) (d s : nat), d <> s ->
  let m' := assign d s m in
  u_owner m' (o_unit m' s) = d /\ u_owner m' (o_unit m' d) = d /\
  forall i (f : M (hpwh R) unit), u_owner (exec m' (Call i f)) = u_owner m' /\ u_owner (exec m' (Destroy i)) = u_owner m'.
Proof.
  intros m d s NE m'. destruct (assign_unit m d s) as (U1 & U2). fold m' in U1, U2. rewrite U1, U2.
  assert (E : u_owner m' (o_unit m s) = d).
  { unfold m', assign. apply Nat.eqb_neq in NE. rewrite NE. cbn [u_owner]. apply upd_eq. }
  splits; auto. intros i f. split; [|reflexivity]. cbn [exec]. destruct (call i f m') as [r m1] eqn:C. apply call_put in C as (w & _ & ->). reflexivity.
Qed.

(** an object is on its own when everything it reaches points back to it *)
Definition onItsOwn (m : heap R) (i : nat) : Prop := u_owner m (o_unit m i) = i /\ u_logic m (o_unit m i) = i.
Lemma C70_neither_fact : forall (m : heap R) (d s : nat), d <> s -> onItsOwn m s ->
  ~ onItsOwn (assign d s m) s /\
  forall cs, (forall c, In c cs -> match c with Assign d' _ => d' <> d | Construct _ d' _ => d' <> d | _ => True end) ->
    ~ onItsOwn (execs cs (assign d s m)) d.
Proof.
  intros m d s NE (HO & HL). destruct (C70_owner_pointer_fact m d s NE) as (O1 & O2 & _). destruct (assign_unit m d s) as (U1 & U2).
  unfold onItsOwn. rewrite O1, U2.
  assert (L : u_logic (assign d s m) = u_logic m) by apply (C70_logic_pointer_fact m [Assign d s]). split; [intros (X & Y); congruence|].
  intros cs HC (_ & Y). rewrite C70_logic_pointer_fact, L in Y.
  assert (EU : o_unit (execs cs (assign d s m)) d = o_unit (assign d s m) d).
  { clear Y. generalize (assign d s m). clear -HC. induction cs as [|c cs IH]; intros m; [reflexivity|].
    unfold execs in *. cbn [fold_left]. rewrite IH by (intros; apply HC; now right). specialize (HC c (or_introl eq_refl)).
    destruct c as [d' s'|j d' s'|i|i f]; cbn [exec]; unfold construct, assign.
    - destruct (Nat.eqb d' s'); [reflexivity|]. cbn [o_unit]. apply upd_ne. auto.
    - destruct (Nat.eqb d' s'); [reflexivity|]. cbn [o_unit]. apply upd_ne. auto.
    - reflexivity.
    - destruct (call i f m) as [r m1] eqn:C. apply call_put in C as (w & _ & ->). reflexivity. }
  rewrite EU, U1 in Y. congruence.
Qed.

Lemma C70_thermostat_fact : forall (m : heap R) (d s : nat) (f : M (hpwh R) unit) l,
  d <> s -> o_alive m s = true -> u_logic m (o_unit m s) = s ->
  (forall w r w', f w = (r, w') -> w_tank w' = w_tank w) ->
  let m' := assign d s m in let m'' := snd (call d f m') in
  logicMet m'' d l = logicMet m' d l /\
  (forall n di dp c ht cs v, l = TempLogic n di dp false c ht cs -> averageT_distribution di (w_tank (view m s)) = Ok v ->
     logicMet m'' d l = Ok (compare c v (w_setpoint (view m s) - dp))).
Proof.
  intros m d s f l NE AL HL HF m' m''. destruct (assign_unit m d s) as (U1 & U2). fold m' in U1, U2.
  destruct (C70_members_fact m d s NE) as (_ & _ & _ & _ & VS). fold m' in VS.
  assert (L : u_logic m' = u_logic m) by apply (C70_logic_pointer_fact m [Assign d s]).
  assert (AL' : o_alive m' s = true) by (unfold m', assign; destruct (Nat.eqb d s); exact AL).
  assert (A : logicMet m' d l = l_met (view m s) l) by (unfold logicMet, deref; now rewrite L, U1, HL, AL', VS).
  assert (CP : exists w, w_tank w = w_tank (view m' d) /\ m'' = put m' d w).
  { unfold m'', call. destruct (f (view m' d)) as [r w] eqn:E. apply HF in E. exists w. auto. }
  destruct CP as (w & E & EM). rewrite EM.
  assert (B : logicMet (put m' d w) d l = l_met (view m s) l).
  { unfold logicMet, deref. cbn [u_logic put o_unit o_alive]. rewrite L, U1, HL, AL', <- VS. unfold l_met, l_tankValue, l_comparison.
    assert (VT : w_tank (view (put m' d w) s) = w_tank (view m' s)).
    { rewrite view_put_tank by congruence. rewrite E, !view_tank, U1, U2. reflexivity. }
    assert (VM : o_mem (put m' d w) s = o_mem m' s) by (cbn [put o_mem]; apply upd_ne; auto).
    assert (VW : view (put m' d w) s = set_w_hs (w_hs (view (put m' d w) s)) (view m' s)).
    { transitivity (set_w_tank (w_tank (view (put m' d w) s)) (set_w_hs (w_hs (view (put m' d w) s)) (o_mem (put m' d w) s))); [reflexivity|].
      rewrite VT, VM. reflexivity. }
    rewrite VW. reflexivity. }
  split; [congruence|]. intros n di dp c ht cs v -> HV. rewrite B. unfold l_met, l_tankValue, obind. rewrite HV. reflexivity.
Qed.

Lemma C70_step_length_fact : forall fuel (m : heap R) (d s : nat) (g : hpwh R -> hpwh R) draw inT amb,
  d <> s -> (forall w, w_tank (g w) = w_tank w /\ w_hs (g w) = w_hs w) ->
  let m' := assign d s m in
  let a := updateTank fuel m' s draw inT amb in
  let b := updateTank fuel (snd (call s (modify g) m')) s draw inT amb in
  fst a = fst b /\ w_tank (view (snd a) s) = w_tank (view (snd b) s).
Proof.
  intros fuel m d s g draw inT amb NE HG m' a b. destruct (C70_owner_pointer_fact m d s NE) as (O1 & _ & _). fold m' in O1.
  destruct (HG (view m' s)) as (G1 & G2).
  assert (EM : snd (call s (modify g) m') = put m' s (g (view m' s))) by reflexivity.
  unfold a, b, updateTank, deref. rewrite EM. cbn [u_owner put o_unit o_alive]. rewrite O1.
  destruct (o_alive m' d) eqn:AD.
  - assert (MD : w_hrStep (view (put m' s (g (view m' s))) d) = w_hrStep (view m' d) /\ w_secStep (view (put m' s (g (view m' s))) d) = w_secStep (view m' d)).
    { assert (X : o_mem (put m' s (g (view m' s))) d = o_mem m' d) by (cbn [put o_mem]; apply upd_ne; auto).
      split; unfold view at 1; cbn [w_hrStep w_secStep set_w_tank set_w_hs]; rewrite X; reflexivity. }
    destruct MD as (-> & ->). unfold call, onTank.
    assert (TT : w_tank (view (put m' s (g (view m' s))) s) = w_tank (view m' s)) by (rewrite view_put_tank by reflexivity; exact G1).
    rewrite TT. destruct (updateNodes fuel (w_hrStep (view m' d)) (w_secStep (view m' d)) draw inT amb _ _ (w_tank (view m' s))) as [r t].
    cbn [fst snd]. split; [reflexivity|]. rewrite !view_put_tank by reflexivity. reflexivity.
  - cbn [fst snd]. split; [reflexivity|]. rewrite view_put_tank by reflexivity. now rewrite G1.
Qed.

Lemma C70_dangling_fact : forall fuel (m : heap R) (d s : nat) (l : logic R) draw inT amb x, d <> s -> onItsOwn m s ->
  (exists e, logicMet (destroy s (assign d s m)) d l = UB e) /\
  (exists e, stepObj fuel d x (destroy s (assign d s m)) = (UB e, destroy s (assign d s m))) /\
  (exists e, updateTank fuel (destroy d (assign d s m)) s draw inT amb = (UB e, destroy d (assign d s m))) /\
  (exists e, stepObj fuel s x (destroy d (assign d s m)) = (UB e, destroy d (assign d s m))).
Proof.
  intros fuel m d s l draw inT amb x NE (HO & HL). destruct (C70_owner_pointer_fact m d s NE) as (O1 & O2 & _). destruct (assign_unit m d s) as (U1 & U2).
  assert (L : u_logic (assign d s m) = u_logic m) by apply (C70_logic_pointer_fact m [Assign d s]).
  set (m' := assign d s m) in *.
  splits; eexists.
  - unfold logicMet, deref. cbn [u_logic destroy o_unit o_alive]. rewrite L, U1, HL, upd_eq. reflexivity.
  - unfold stepObj. cbn [u_logic u_owner destroy o_unit o_alive]. rewrite O2, L, U1, HL, upd_eq, andb_false_r. reflexivity.
  - unfold updateTank, deref. cbn [u_owner destroy o_unit o_alive]. rewrite O1, upd_eq. reflexivity.
  - unfold stepObj. cbn [u_logic u_owner destroy o_unit o_alive]. rewrite O1, upd_eq. reflexivity.
Qed.

Lemma C70_constructed_fact : forall (m : heap R) (d s : nat) (junk : hpwh R), d <> s ->
  hasCompressor (view (construct junk d s m) d) = hasCompressor junk /\
  kept (view (construct junk d s m) d) = kept junk /\ w_hs (view (construct junk d s m) d) = w_hs (view m s).
Proof.
  intros m d s junk NE. unfold construct.
  match goal with |- context[assign d s ?M] => destruct (C70_members_fact M d s NE) as (_ & H2 & _ & H4 & _); set (m0 := M) in * end.
  assert (K : kept (view m0 d) = kept junk).
  { assert (X : o_mem m0 d = junk) by apply upd_eq. unfold view. rewrite X. reflexivity. }
  rewrite H2. splits; [|congruence|].
  - assert (X : w_compIx (view (assign d s m0) d) = w_compIx junk).
    { rewrite K in H4. unfold kept in H4. congruence. }
    unfold hasCompressor. now rewrite X.
  - unfold m0. reflexivity.
Qed.

Lemma C70_self_fact : forall (m : heap R) (i : nat), assign i i m = m.
Proof. intros m i. unfold assign. now rewrite Nat.eqb_refl. Qed.

(** ** Concrete programs *)

(** two objects, each on its own: object 0 a hot unit, object 1 an empty one of another size *)
Definition exHeap {T} {N : Num T} (T0 T1 : list T) : heap T :=
  mkheap (fun i => exUnit (if Nat.eqb i 0 then T0 else T1)) (fun i => i) (fun i => Nat.ltb i 2)
    (fun u => exTankG (if Nat.eqb u 0 then T0 else T1)) (fun _ => exSources) (fun u => u) (fun u => u).

Lemma C70_refuted_fact :
  ~ (forall (m m' : heap PrimFloat.float) d s fuel x, d <> s -> stepObj fuel d x (assign d s m) = (Ok tt, m') ->
       heatContent (w_tank (view m' s)) = heatContent (w_tank (view m s))).
Proof.
  intros H.
  set (m := exHeap [30; 45; 52]%float [20; 20; 20]%float).
  set (x := exIn 20%float 20%float 0).
  destruct (stepObj 1000 1 x (assign 1 0 m)) as [r m'] eqn:E.
  assert (V : match stepObj 1000 1 x (assign 1 0 m) with (Ok tt, m') => PrimFloat.eqb (heatContent (w_tank (view m' 0))) (heatContent (w_tank (view m 0))) = false | _ => False end) by (vm_compute; reflexivity).
  rewrite E in V. destruct r as [[]| | |]; try contradiction.
  assert (X := H m m' 1%nat 0%nat 1000%nat x ltac:(lia) E). rewrite X in V. revert V. vm_compute. discriminate.
Qed.

Lemma C70_ex_own_fact : onItsOwn (exHeap [30; 45; 52] [20; 20; 20]) 0 /\ onItsOwn (exHeap [30; 45; 52] [20; 20; 20]) 1 /\
  o_alive (exHeap [30; 45; 52] [20; 20; 20]) 0 = true.
Proof. split; [|split]; [split; reflexivity|split; reflexivity|reflexivity]. Qed.
Lemma C70_ex_thermostat_fact :
  let m := assign 1 0 (exHeap [52; 52; 52]%float [20; 20; 20]%float) in
  let l := exOn exLower 5%float in
  logicMet m 1 l = Ok false /\
  logicMet (snd (call 1 (modify (set_w_setpoint 90%float)) m)) 1 l = Ok false /\
  logicMet (snd (call 0 (modify (set_w_setpoint 90%float)) m)) 1 l = Ok true.
Proof. vm_compute. auto. Qed.
Lemma C70_ex_step_length_fact :
  let m := assign 1 0 (exHeap [52; 52; 52]%float [20; 20; 20]%float) in
  let hour := fun w : hpwh PrimFloat.float => set_w_hrStep 1%float (set_w_secStep 3600%float w) in
  let heat := fun m : heap PrimFloat.float => heatContent (w_tank (view m 0)) in
  let a := updateTank 1000 m 0 0%float 10%float 20%float in
  let b := updateTank 1000 (snd (call 0 (modify hour) m)) 0 0%float 10%float 20%float in
  let c := updateTank 1000 (snd (call 1 (modify hour) m)) 0 0%float 10%float 20%float in
  fst a = Ok tt /\ fst b = Ok tt /\ fst c = Ok tt /\
  PrimFloat.eqb (heat (snd a)) (heat (snd b)) = true /\ PrimFloat.ltb (heat (snd c) + 100)%float (heat (snd a)) = true.
Proof. vm_compute. repeat split. Qed.

(** ** The parts *)

Lemma C70_source_fact : forall (s d : hsrc R) r d', assignHS s d = (r, d') ->
  ((h_backup s = None /\ h_companion s = None /\ h_followed s = None) <-> r = Ok tt) /\
  (h_on d', h_runtime d', h_eIn d', h_eOut d', h_vip d') = (h_on s, h_runtime s, h_eIn s, h_eOut s, h_vip s) /\
  (r = Ok tt -> (h_turnOn d', h_shutOff d', h_standby d', h_dist d', h_minT d', h_maxT d') = (h_turnOn s, h_shutOff s, h_standby s, h_dist s, h_minT s, h_maxT s)) /\
  (r <> Ok tt -> (h_turnOn d', h_shutOff d', h_standby d', h_dist d', h_minT d', h_maxT d') = (h_turnOn d, h_shutOff d, h_standby d, h_dist d, h_minT d, h_maxT d)) /\
  h_locked d' = h_locked d.
Proof.
  intros s d r d' E. unfold assignHS, bind, modify, throw in E.
  destruct (h_backup s) as [b|] eqn:B; [|destruct (h_companion s) as [c|] eqn:C; [|destruct (h_followed s) as [g|] eqn:F]];
    cbn [isSome orb] in E; injection E as <- <-;
    (split; [split; [intros (X & Y & Z); try discriminate; reflexivity|intros X; try discriminate; auto]|]);
    (split; [reflexivity|]); (split; [intros X; try discriminate; reflexivity|]); (split; [intros X; try congruence; reflexivity|reflexivity]).
Qed.
Lemma C70_condenser_fact : forall (w : hpwh R) (s d d' : hsrc R) ext cond, assignCond s d = (Ok tt, d') ->
  getPerformance w d' ext cond = getPerformance w (set_h_doDefrost (h_doDefrost d) s) ext cond /\
  (h_mlOut d', h_mlAir d', h_stbyPwr d') = (h_mlOut d, h_mlAir d, h_stbyPwr d).
Proof.
  intros w s d d' ext cond E. unfold assignCond, bind in E. destruct (assignHS s d) as [r h] eqn:A. destruct r as [[]| | |]; try discriminate.
  unfold assignHS, bind, modify, throw in A.
  destruct (isSome (h_backup s) || isSome (h_companion s) || isSome (h_followed s))%bool; [discriminate|]. injection A as <-.
  unfold modify in E. injection E as <-. split; reflexivity.
Qed.
Lemma C70_tank_fact : forall s d : tank R, wf_tank s -> t_nodeCp d <> t_nodeCp s ->
  heatContent (assignTank s d) = heatContent s /\ ~ wf_tank (assignTank s d).
Proof.
  intros s d W NE. split; [reflexivity|]. intros W'. apply NE. destruct W, W'.
  unfold assignTank in *. cbn [t_nodeCp t_nodeVol t_volume t_Ts set_t_volume set_t_fixed set_t_UA set_t_fitUA set_t_Ts set_t_mixesOnDraw set_t_mixBelowFrac set_t_doMix set_t_hasHX] in *.
  congruence.
Qed.

Lemma C70_ex_source_fact :
  fst (assignHS (exHS TResistance true None exUpper [] [] 2) (exHS TResistance false None exLower [] [] 0)) = (Ok tt : outc unit) /\
  (exists e, fst (assignHS (nth 2 exSources (exHS TCompressor false None exLower [] [] 0)) (exHS (T:=R) TCompressor false None exLower [] [] 0)) = Err e) /\
  fst (assignCond (exHS (T:=R) TCompressor false None exLower [] [] 0) (exHS TCompressor false None exUpper [] [] 2)) = Ok tt.
Proof. split; [|split]; [reflexivity|eexists; reflexivity|reflexivity]. Qed.
Lemma C70_ex_tank_fact : wf_tank (exTankG (T:=R) [30; 45; 52]) /\ t_nodeCp (exTankG (T:=R) [30; 45; 52; 53]) <> t_nodeCp (exTankG [30; 45; 52]).
Proof.
  split; [apply (exUnit_wf [30; 45; 52]); cbn; lia|]. unfold exTankG. cbn [t_nodeCp length]. unfold CPWATER, DENSITYWATER, dec, nofN. num_simpl. cbn [Z.of_nat Pos.of_succ_nat Pos.succ]. lra.
Qed.
