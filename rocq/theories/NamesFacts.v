(** Proofs of the theorems stated in PropsNames.v: Properties of names in the data model: associations and the primary heat source *)

From Coq Require Import ZArith String List Bool Reals Lra Lia Floats.
From Verif Require Import Num FNum Base Units Utils Types TankM Logic HeatSrc Step Setters Perf DataModel Spec.
From Verif Require Import RList FrameProofs SimFrame ControlProofs DistFacts PerfFacts StepEnergy SeqProofs DataModelFacts RoundTripFacts CentralFacts CentralRTFacts Example.
Import ListNotations.
Local Open Scope R_scope.
(** ** What a name refers to *)

(** the heat source a name stands for: the last one with it, the first one of all if none has it *)
Definition refersTo (ids : list string) (s : string) (j : nat) : Prop :=
  (nth_error ids j = Some s /\ forall k, (j < k)%nat -> nth_error ids k <> Some s) \/ (~ In s ids /\ j = 0%nat).
Lemma lookupFrom_spec s : forall ids k f, (~ In s ids /\ lookupFrom k ids s f = f) \/
  exists j, lookupFrom k ids s f = (k + j)%nat /\ nth_error ids j = Some s /\ forall l, (j < l)%nat -> nth_error ids l <> Some s.
Proof.
  induction ids as [|x ids IH]; intros k f; [left; split; [intros []|reflexivity]|]. cbn [lookupFrom].
  destruct (IH (S k) (if String.eqb x s then k else f)) as [(HN & ->)|(j & -> & HJ & HL)].
  - destruct (String.eqb_spec x s) as [->|NE].
    + right. exists 0%nat. split; [lia|]. split; [reflexivity|]. intros [|l] Hl; [lia|]. cbn. intros X. apply HN. now apply nth_error_In in X.
    + left. split; [|reflexivity]. intros [X|X]; auto.
  - right. exists (S j). split; [lia|]. split; [exact HJ|]. intros [|l] Hl; [lia|]. cbn. apply HL. lia.
Qed.
Lemma lookup_refers ids s : refersTo ids s (lookup ids s).
Proof.
  unfold refersTo, lookup. destruct (lookupFrom_spec s ids 0 0) as [(HN & ->)|(j & -> & HJ & HL)]; [right; auto|left]. cbn [Nat.add]. auto.
Qed.

Section Gen.
  Context {T : Type} {N : Num T}.
  Definition assoc (h : hsrc T) := (h_backup h, h_followed h, h_companion h).
  Lemma as_type v (h : hsrc T) : assoc (set_h_type v h) = assoc h. Proof. reflexivity. Qed.
  Lemma as_hyst v (h : hsrc T) : assoc (set_h_hyst v h) = assoc h. Proof. reflexivity. Qed.
  Lemma as_maxSet v (h : hsrc T) : assoc (set_h_maxSet v h) = assoc h. Proof. reflexivity. Qed.
  Lemma as_doDefrost v (h : hsrc T) : assoc (set_h_doDefrost v h) = assoc h. Proof. reflexivity. Qed.
  Lemma as_mlOut v (h : hsrc T) : assoc (set_h_mlOut v h) = assoc h. Proof. reflexivity. Qed.
  Lemma as_mlAir v (h : hsrc T) : assoc (set_h_mlAir v h) = assoc h. Proof. reflexivity. Qed.
  Lemma as_shxCold v (h : hsrc T) : assoc (set_h_shxCold v h) = assoc h. Proof. reflexivity. Qed.
  Lemma as_shxHot v (h : hsrc T) : assoc (set_h_shxHot v h) = assoc h. Proof. reflexivity. Qed.
  Lemma as_shxPump v (h : hsrc T) : assoc (set_h_shxPump v h) = assoc h. Proof. reflexivity. Qed.
  Lemma as_stbyPwr v (h : hsrc T) : assoc (set_h_stbyPwr v h) = assoc h. Proof. reflexivity. Qed.
  Lemma as_config v (h : hsrc T) : assoc (set_h_config v h) = assoc h. Proof. reflexivity. Qed.
  Lemma as_multipass v (h : hsrc T) : assoc (set_h_multipass v h) = assoc h. Proof. reflexivity. Qed.
  Lemma as_inScale v (h : hsrc T) : assoc (set_h_inScale v h) = assoc h. Proof. reflexivity. Qed.
  Lemma as_copScale v (h : hsrc T) : assoc (set_h_copScale v h) = assoc h. Proof. reflexivity. Qed.
  Lemma as_rdPwr v (h : hsrc T) : assoc (set_h_rdPwr v h) = assoc h. Proof. reflexivity. Qed.
  Lemma as_rdLift v (h : hsrc T) : assoc (set_h_rdLift v h) = assoc h. Proof. reflexivity. Qed.
  Lemma as_rdBelow v (h : hsrc T) : assoc (set_h_rdBelow v h) = assoc h. Proof. reflexivity. Qed.
  Lemma as_defrost v (h : hsrc T) : assoc (set_h_defrost v h) = assoc h. Proof. reflexivity. Qed.
  Lemma as_power v (h : hsrc T) : assoc (set_h_power v h) = assoc h. Proof. reflexivity. Qed.
  Lemma as_mpFlow v (h : hsrc T) : assoc (set_h_mpFlow v h) = assoc h. Proof. reflexivity. Qed.
  Lemma as_extIn v (h : hsrc T) : assoc (set_h_extIn v h) = assoc h. Proof. reflexivity. Qed.
  Lemma as_extOut v (h : hsrc T) : assoc (set_h_extOut v h) = assoc h. Proof. reflexivity. Qed.
  Lemma as_maxT v (h : hsrc T) : assoc (set_h_maxT v h) = assoc h. Proof. reflexivity. Qed.
  Lemma as_minT v (h : hsrc T) : assoc (set_h_minT v h) = assoc h. Proof. reflexivity. Qed.
  Lemma as_eval v (h : hsrc T) : assoc (set_h_eval v h) = assoc h. Proof. reflexivity. Qed.
  Lemma as_airflow v (h : hsrc T) : assoc (set_h_airflow v h) = assoc h. Proof. reflexivity. Qed.
  Ltac asimpl := rewrite ?as_type, ?as_hyst, ?as_maxSet, ?as_doDefrost, ?as_mlOut, ?as_mlAir, ?as_shxCold, ?as_shxHot, ?as_shxPump, ?as_stbyPwr, ?as_config, ?as_multipass, ?as_inScale, ?as_copScale, ?as_rdPwr, ?as_rdLift, ?as_rdBelow, ?as_defrost, ?as_power, ?as_mpFlow, ?as_extIn, ?as_extOut, ?as_maxT, ?as_minT, ?as_eval, ?as_airflow.
  Lemma readMap_assoc itp cop three m (h h' : hsrc T) a : readMap itp cop three m h = Ok (h', a) -> assoc h' = assoc h.
  Proof.
    unfold readMap. intros E. destruct (dm_env m) as [[|e r]|]; cbn [obind] in E; try discriminate;
    destruct (capsOrCops cop (dm_in m) (dm_cap m)) as [v1|x|x|]; try discriminate; cbn [obind] in E; destruct (Nat.ltb _ 2); try discriminate;
    injection E as <- _; unfold assoc; wsimpl; reflexivity.
  Qed.
  Lemma condCommon_assoc itp cop three d (h h' : hsrc T) g : condCommon itp cop three d h = Ok (h', g) -> assoc h' = assoc h.
  Proof.
    unfold condCommon. intros E. match type of E with obind ?q _ = _ => destruct q as [[h2 a]|x|x|] eqn:E2; try discriminate end. cbn [obind] in E.
    assert (A : assoc h2 = assoc h).
    { destruct (dc_map d) as [m|]; [|injection E2 as <- _; unfold assoc; wsimpl; reflexivity].
      destruct (readMap itp cop three m _) as [[h3 b]|x|x|] eqn:E3; try discriminate. cbn [obind] in E2. injection E2 as <- _.
      apply readMap_assoc in E3. rewrite E3. unfold assoc. wsimpl. reflexivity. }
    rewrite <- A. injection E as <- _. unfold assoc, setupDefrostMap. destruct (from (dc_defrost d) false), (dc_stby d); wsimpl; reflexivity.
  Qed.
  Lemma atwFrom_assoc itp cop d (h h' : hsrc T) g : atwFrom itp cop d h = Ok (h', g) -> assoc h' = assoc h.
  Proof.
    unfold atwFrom. intros E. destruct (condCommon itp cop true d _) as [[h1 a]|x|x|] eqn:E1; try discriminate. cbn [obind] in E.
    apply condCommon_assoc in E1. change (assoc (set_h_config External h)) with (assoc h) in E1. rewrite <- E1. injection E as <- _.
    unfold assoc. destruct (dc_resDef d) as [[[p l] t]|], (dc_low d) as [[o b]|]; wsimpl; reflexivity.
  Qed.
  Lemma freshHS_assoc (junk : hsrc T) : assoc (freshHS junk) = (None, None, None).
  Proof. reflexivity. Qed.
  Lemma freshCond_assoc (junk : hsrc T) : assoc (freshCond junk) = (None, None, None).
  Proof. unfold freshCond. asimpl. apply freshHS_assoc. Qed.
  Lemma res_assoc p (junk : hsrc T) : assoc (set_h_power p (freshRes junk)) = (None, None, None).
  Proof. unfold freshRes. rewrite as_power, as_type, as_power. apply freshHS_assoc. Qed.
  Lemma ok_fst {A B} (a a' : A) (b b' : B) : Ok (a, b) = Ok (a', b') -> a = a'.
  Proof. intros [= -> _]. reflexivity. Qed.
  Lemma intSource_assoc itp (junk : hsrc T) cop d h g : intSource itp junk cop d = Ok (h, g) -> assoc h = (None, None, None).
  Proof.
    unfold intSource. intros E. destruct (dh_kind d), (dh_src d); try discriminate.
    - apply ok_fst in E. rewrite <- E. apply res_assoc.
    - apply condCommon_assoc in E. rewrite E. match goal with |- context[dc_coil ?q] => destruct (dc_coil q) as [[]|] end; asimpl; apply (freshCond_assoc junk).
  Qed.
  Lemma cenSource_assoc itp (junk : hsrc T) cop n ce d h g : cenSource itp junk cop n ce d = Ok (h, g) -> assoc h = (None, None, None).
  Proof.
    unfold cenSource. intros E. destruct (dh_kind d), (dh_src d); try discriminate.
    - apply ok_fst in E. rewrite <- E. apply res_assoc.
    - revert E. pose proof (freshCond_assoc junk) as HF. generalize dependent (freshCond junk). intros f HF E. apply atwFrom_assoc in E. rewrite E, <- HF.
      destruct (ce_shx ce) as [[[x y] z]|], (ce_flow ce); asimpl; reflexivity.
  Qed.
  Lemma hsFrom_assoc d (h h' : hsrc T) nm : hsFrom d h = Ok (h', nm) -> assoc h' = assoc h /\ nm = from (dh_id d) "heatsource"%string.
  Proof.
    unfold hsFrom. intros E. destruct (makeAll (from (dh_on d) [])) as [on|e|e|]; try discriminate. cbn [obind] in E.
    destruct (makeAll (from (dh_off d) [])) as [off|e|e|]; try discriminate. cbn [obind] in E.
    destruct (match dh_stby d with None => Ok None | Some l => logicMake l end) as [st|e|e|]; try discriminate. cbn [obind] in E.
    injection E as <- <-. split; [|reflexivity]. unfold assoc. destruct st, (dh_dist d) as [[hs ws]|]; wsimpl; reflexivity.
  Qed.
End Gen.

(** the part of a description that lists the heat sources *)
Definition perfOf {T} {N : Num T} (d : dsim T) : option (dperf (T:=T)) :=
  match du_sys d with Some Sys_integrated => du_int d | Some Sys_central => option_map ce_perf (du_central d) | _ => None end.
Definition idsOf {T} {N : Num T} (p : dperf (T:=T)) : list string := map (fun d => from (dh_id d) EmptyString) (dp_hs p).
(** the association a name in a description stands for *)
Definition assocSpec (ids : list string) (o : option string) (o' : option nat) : Prop :=
  match o with None => o' = None | Some s => exists j, refersTo ids s j /\ o' = Some j end.

Lemma link_assoc {T} {N : Num T} ids pr (d : dhsc T) (h : hsrc T) nm : assoc h = (None, None, None) -> let h' := link ids pr d h nm in
  h_vip h' = String.eqb nm (from pr EmptyString) /\ assocSpec ids (dh_backup d) (h_backup h') /\ assocSpec ids (dh_followed d) (h_followed h') /\ assocSpec ids (dh_companion d) (h_companion h').
Proof.
  unfold assoc. intros A. injection A as A1 A2 A3. unfold link, assocSpec. cbv zeta.
  destruct (dh_backup d), (dh_followed d), (dh_companion d); wsimpl; splits; auto; eexists; (split; [apply lookup_refers|reflexivity]).
Qed.
Lemma perfFrom_names {T} {N : Num T} (rd : readSrc) (p : dperf (T:=T)) u v : (forall d h g, rd d = Ok (h, g) -> assoc h = (None, None, None)) -> perfFrom rd p u = Ok v ->
  length (w_hs (u_w v)) = length (dp_hs p) /\ forall i di h', nth_error (dp_hs p) i = Some di -> nth_error (w_hs (u_w v)) i = Some h' ->
  nth_error (u_names v) i = Some (from (dh_id di) "heatsource"%string) /\ h_vip h' = String.eqb (from (dh_id di) "heatsource"%string) (from (dp_primary p) EmptyString) /\
  assocSpec (idsOf p) (dh_backup di) (h_backup h') /\ assocSpec (idsOf p) (dh_followed di) (h_followed h') /\ assocSpec (idsOf p) (dh_companion di) (h_companion h').
Proof.
  intros HA E. unfold perfFrom in E. destruct (readSources rd (dp_hs p)) as [rs|e|e|] eqn:ER; try discriminate. cbn [obind] in E. injection E as <-. cbn [u_w u_names]. wsimpl.
  destruct (readSources_inv _ _ _ ER) as (L & HI). split; [rewrite map_length, combine_length; lia|].
  intros i di h' Hd Hh'. assert (Hi : (i < length (dp_hs p))%nat) by (apply nth_error_Some; congruence).
  destruct (nth_error_some rs i ltac:(lia)) as (r & Hr). destruct (HI i di r Hd Hr) as (h1 & E1 & E2).
  rewrite nth_error_map, (nth_error_combine _ _ _ _ _ Hd Hr) in Hh'. cbn [option_map] in Hh'. destruct r as [[h2 g2] nm]. cbn [fst snd] in *. injection Hh' as <-.
  destruct (hsFrom_assoc _ _ _ _ E2) as (A2 & ->). apply HA in E1. rewrite E1 in A2.
  rewrite nth_error_map, Hr. cbn [option_map snd]. split; [reflexivity|]. exact (link_assoc (idsOf p) (dp_primary p) di h2 _ A2).
Qed.
Lemma simFrom_names {T} {N : Num T} itp junk (d : dsim T) u0 v p : perfOf d = Some p -> simFrom itp junk d u0 = Ok v ->
  length (w_hs (u_w v)) = length (dp_hs p) /\ forall i di h', nth_error (dp_hs p) i = Some di -> nth_error (w_hs (u_w v)) i = Some h' ->
  nth_error (u_names v) i = Some (from (dh_id di) "heatsource"%string) /\ h_vip h' = String.eqb (from (dh_id di) "heatsource"%string) (from (dp_primary p) EmptyString) /\
  assocSpec (idsOf p) (dh_backup di) (h_backup h') /\ assocSpec (idsOf p) (dh_followed di) (h_followed h') /\ assocSpec (idsOf p) (dh_companion di) (h_companion h').
Proof.
  intros HP E. unfold simFrom in E. destruct (Z.ltb _ 0); [discriminate|]. unfold perfOf in HP. destruct (du_sys d) as [[]|]; try discriminate.
  - rewrite HP in E. match type of E with obind (perfFrom ?rd _ ?u1) _ = _ => destruct (perfFrom rd p u1) as [v1|e|e|] eqn:EV; try discriminate end. cbn [obind] in E. injection E as <-.
    cbn [u_w u_names]. wsimpl. eapply perfFrom_names; [|exact EV]. intros; eapply intSource_assoc; eauto.
  - destruct (du_central d) as [ce|]; [|discriminate]. cbn [option_map] in HP. injection HP as HP.
    match type of E with obind (perfFrom ?rd _ ?u1) _ = _ => destruct (perfFrom rd (ce_perf ce) u1) as [v1|e|e|] eqn:EV; try discriminate end. cbn [obind] in E.
    rewrite HP in EV. destruct (centralPorts ce (du_nodes d) v1) as [v2|e|e|] eqn:EP; try discriminate. cbn [obind] in E. injection E as <-. cbn [u_w u_names]. wsimpl.
    destruct (perfFrom_names _ _ _ _ (fun d h g => cenSource_assoc _ _ _ _ _ d h g) EV) as (L & HI). clear EV.
    unfold centralPorts in EP. destruct (if Z.ltb (w_compIx (u_w v1)) 0 then None else nth_error (w_hs (u_w v1)) (Z.to_nat (w_compIx (u_w v1)))) as [c|] eqn:Hc; [|discriminate].
    destruct (Z.ltb (w_compIx (u_w v1)) 0); [discriminate|].
    destruct (du_nodes d) as [n|]; [|discriminate]. destruct (ce_in ce) as [rIn|]; [|discriminate]. destruct (ce_out ce) as [rOut|]; [|discriminate]. injection EP as <-. cbn [u_w u_names]. wsimpl.
    split; [rewrite upd_length; exact L|]. intros i di h' Hd Hh'. set (k := Z.to_nat (w_compIx (u_w v1))) in *.
    destruct (Nat.eq_dec i k) as [->|NE].
    + rewrite nth_error_upd_same in Hh' by (apply nth_error_Some; congruence). injection Hh' as <-. specialize (HI k di c Hd Hc).
      destruct (ce_flow ce); wsimpl; exact HI.
    + rewrite nth_error_upd_other in Hh' by auto. exact (HI i di h' Hd Hh').
Qed.

(** ** C87 *)

Lemma C87_associations_fact : forall (T : Type) (N : Num T) itp junk (d : dsim T) u0 v p, perfOf d = Some p -> simFrom itp junk d u0 = Ok v ->
  length (w_hs (u_w v)) = length (dp_hs p) /\ forall i di h', nth_error (dp_hs p) i = Some di -> nth_error (w_hs (u_w v)) i = Some h' ->
  assocSpec (idsOf p) (dh_backup di) (h_backup h') /\ assocSpec (idsOf p) (dh_followed di) (h_followed h') /\ assocSpec (idsOf p) (dh_companion di) (h_companion h').
Proof.
  intros T N itp junk d u0 v p HP E. destruct (simFrom_names itp junk d u0 v p HP E) as (L & HI). split; [exact L|]. intros i di h' Hd Hh'. apply (HI i di h' Hd Hh').
Qed.

Lemma C87_priority_fact : forall (T : Type) (N : Num T) itp junk (d : dsim T) u0 v p, perfOf d = Some p -> simFrom itp junk d u0 = Ok v ->
  forall i di h', nth_error (dp_hs p) i = Some di -> nth_error (w_hs (u_w v)) i = Some h' ->
  exists nm, nth_error (u_names v) i = Some nm /\ nm = from (dh_id di) "heatsource"%string /\ (h_vip h' = true <-> nm = from (dp_primary p) EmptyString).
Proof.
  intros T N itp junk d u0 v p HP E i di h' Hd Hh'. destruct (simFrom_names itp junk d u0 v p HP E) as (L & HI). destruct (HI i di h' Hd Hh') as (H1 & H2 & _).
  eexists. split; [exact H1|]. split; [reflexivity|]. rewrite H2. apply String.eqb_eq.
Qed.

Lemma simTo_perf {T} {N : Num T} (u : usim T) d w' : simTo u (u_w u) = (Ok d, w') -> exists p w1, perfOf d = Some p /\ perfTo u (u_w u) = (Ok p, w1).
Proof.
  intros E. unfold simTo in E. unfold bind at 1, get at 1 in E. cbv beta zeta in E. apply bind_inv in E. destruct E as (b & w1 & E1 & E).
  assert (w1 = u_w u).
  { destruct (Z.leb 0 (w_compIx (u_w u))); [|now injection E1 as _ <-]. apply bind_inv in E1. destruct E1 as (c & w2 & E1 & E2). apply lift_inv' in E1. destruct E1 as [_ ->]. now injection E2 as _ <-. }
  subst w1. destruct b.
  - apply bind_inv in E. destruct E as (ce & w2 & E2 & E). injection E as <- _. unfold centralTo in E2. apply bind_inv in E2. destruct E2 as (p & w3 & E3 & E2).
    exists p, w3. split; [|exact E3]. unfold bind at 1, get at 1 in E2. destruct (nth_error (w_hs w3) _); [|discriminate]. injection E2 as <- _. reflexivity.
  - apply bind_inv in E. destruct E as (p & w2 & E2 & E). injection E as <- _. exists p, w2. split; [reflexivity|exact E2].
Qed.
Lemma vip_last {T} : forall (hs : list (hsrc T)) (names : list string) acc, length names = length hs ->
  (fold_left (fun acc '(h, s) => if h_vip h then Some s else acc) (combine hs names) acc = acc /\ forall h, In h hs -> h_vip h = false) \/
  exists i h s, fold_left (fun acc '(h, s) => if h_vip h then Some s else acc) (combine hs names) acc = Some s /\ nth_error hs i = Some h /\ nth_error names i = Some s /\ h_vip h = true /\
    forall j hj, nth_error hs j = Some hj -> h_vip hj = true -> (j <= i)%nat.
Proof.
  induction hs as [|h hs IH]; intros [|s names] acc HL; try discriminate; [left; split; [reflexivity|intros ? []]|]. cbn [combine fold_left]. injection HL as HL.
  destruct (IH names (if h_vip h then Some s else acc) HL) as [(E & HN)|(i & hi & si & E & A & B & C & D)].
  - rewrite E. destruct (h_vip h) eqn:EV.
    + right. exists 0%nat, h, s. splits; auto. intros [|j] hj Hj Hv; [lia|]. cbn in Hj. apply nth_error_In in Hj. rewrite (HN _ Hj) in Hv. discriminate.
    + left. split; [reflexivity|]. intros x [<-|Hx]; auto.
  - right. exists (S i), hi, si. splits; auto. intros [|j] hj Hj Hv; [lia|]. specialize (D j hj Hj Hv). lia.
Qed.
Lemma C87_primary_fact : forall (T : Type) (N : Num T) (u : usim T) d w', length (u_names u) = length (w_hs (u_w u)) -> simTo u (u_w u) = (Ok d, w') ->
  exists p, perfOf d = Some p /\
  match dp_primary p with
  | None => forall h, In h (w_hs (u_w u)) -> h_vip h = false
  | Some s => exists i h, nth_error (w_hs (u_w u)) i = Some h /\ nth_error (u_names u) i = Some s /\ h_vip h = true /\
      forall j hj, nth_error (w_hs (u_w u)) j = Some hj -> h_vip hj = true -> (j <= i)%nat
  end.
Proof.
  intros T N u d w' HL E. destruct (simTo_perf u d w' E) as (p & w1 & HP & E1). exists p. split; [exact HP|].
  unfold perfTo in E1. apply bind_inv in E1. destruct E1 as (ds & w2 & _ & E1). injection E1 as <- _. cbn [dp_primary].
  destruct (vip_last (w_hs (u_w u)) (u_names u) None HL) as [(-> & HN)|(i & h & s & -> & A & B & C & D)]; [exact HN|]. exists i, h. splits; auto.
Qed.

(** a unit with two priority elements, as the presets never but users may make *)
Definition exTwoVips : usim float :=
  mkusim (set_w_hs [exHS TResistance true None exUpper [exOn exUpper (nofZ 15)] [] 2; exHS TResistance true None exLower [] [] 0;
    exHS TCompressor false (Some 1%nat) exLower [exOn exLower (nofZ 5)] [exOff (nofZ 60)] 0] (exUnit (map fofZ [20; 30; 40; 50]%Z))) ["upper"; "lower"; "compressor"]%string [None; None; None] true.
Lemma C87_refuted_fact : exists itp junk d w' v, simTo exTwoVips (u_w exTwoVips) = (Ok d, w') /\ simFrom itp junk d exTwoVips = Ok v /\
  map (@h_vip float) (w_hs (u_w exTwoVips)) = [true; true; false] /\ map (@h_vip float) (w_hs (u_w v)) = [false; true; false].
Proof.
  set (itp := fun (_ : coil) (_ : list (list float)) (_ _ : list float) => fofZ 1). exists itp, (exHS TResistance true None exUpper [] [] 0).
  assert (X : (match simTo exTwoVips (u_w exTwoVips) with (Ok d, _) => match simFrom itp (exHS TResistance true None exUpper [] [] 0) d exTwoVips with
      | Ok v => match map (@h_vip float) (w_hs (u_w v)) with [false; true; false] => true | _ => false end | _ => false end | _ => false end) = true) by (vm_compute; reflexivity).
  destruct (simTo exTwoVips (u_w exTwoVips)) as [[d|e|e|] w'] eqn:E1; try discriminate.
  destruct (simFrom itp (exHS TResistance true None exUpper [] [] 0) d exTwoVips) as [v|e|e|] eqn:E2; try discriminate.
  exists d, w', v. split; [reflexivity|]. split; [exact E2|]. split; [reflexivity|].
  destruct (map (@h_vip float) (w_hs (u_w v))) as [|[] [|[] [|[] [|]]]]; try discriminate. reflexivity.
Qed.

(** a description with an element backing up a source that does not exist, two sources of one name and no names or primary source at the end *)
Definition exNames : dsim float :=
  let e id bk := mkdhsc id K_resistance (SRes (fofZ 4500)) (Some ([fofZ 1], [fofZ 1])) None None None bk None None in
  mkdsim (Some false) (Some 4%Z) (Some false) (Some (fofZ 330)) (Some false) (Some Sys_integrated)
    (Some (mkdperf (tankTo (exTankG (map fofZ [20; 30; 40; 50]%Z))) [e (Some "a") (Some "nobody"); e (Some "b") (Some "c"); e (Some "c") None; e (Some "c") None; e (Some "") None]%string None)) None.
Lemma C87_example_fact : exists v p, simFrom (fun _ _ _ _ => fofZ 1) (exHS TResistance true None exUpper [] [] 0) exNames exTwoVips = Ok v /\ perfOf exNames = Some p /\
  map (@h_backup float) (w_hs (u_w v)) = [Some 0%nat; Some 3%nat; None; None; None] /\ map (@h_vip float) (w_hs (u_w v)) = [false; false; false; false; true].
Proof. do 2 eexists. splits; [vm_compute; reflexivity|reflexivity|reflexivity|reflexivity]. Qed.
