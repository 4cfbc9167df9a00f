(** Properties of names in the data model: associations and the primary heat source.  Statements only; proofs in NamesFacts.v. *)

From Coq Require Import ZArith String List Bool Reals Lra Lia Floats.
From Verif Require Import Num FNum Base Units Utils Types TankM Logic HeatSrc Step Setters Perf DataModel Spec.
From Verif Require Import RList FrameProofs SimFrame ControlProofs DistFacts PerfFacts StepEnergy SeqProofs DataModelFacts RoundTripFacts CentralFacts CentralRTFacts Example.
From Verif Require Import NamesFacts.
Import ListNotations.
Local Open Scope R_scope.

(** In whatever description is read, a name among the associations stands for the last heat source with that
    name.  A name no heat source has is not an error: it stands for the first heat source. *)
Theorem C87_associations : forall (T : Type) (N : Num T) itp junk (d : dsim T) u0 v p, perfOf d = Some p -> simFrom itp junk d u0 = Ok v ->
  length (w_hs (u_w v)) = length (dp_hs p) /\ forall i di h', nth_error (dp_hs p) i = Some di -> nth_error (w_hs (u_w v)) i = Some h' ->
  assocSpec (idsOf p) (dh_backup di) (h_backup h') /\ assocSpec (idsOf p) (dh_followed di) (h_followed h') /\ assocSpec (idsOf p) (dh_companion di) (h_companion h').
Proof. exact C87_associations_fact. Qed.
Print Assumptions C87_associations.

(** The sources with priority are all those with the name given as primary; without a primary source, all
    those with an empty name. *)
Theorem C87_priority : forall (T : Type) (N : Num T) itp junk (d : dsim T) u0 v p, perfOf d = Some p -> simFrom itp junk d u0 = Ok v ->
  forall i di h', nth_error (dp_hs p) i = Some di -> nth_error (w_hs (u_w v)) i = Some h' ->
  exists nm, nth_error (u_names v) i = Some nm /\ nm = from (dh_id di) "heatsource"%string /\ (h_vip h' = true <-> nm = from (dp_primary p) EmptyString).
Proof. exact C87_priority_fact. Qed.
Print Assumptions C87_priority.

(** Only the last of several priority sources is written as the primary one. *)
Theorem C87_primary : forall (T : Type) (N : Num T) (u : usim T) d w', length (u_names u) = length (w_hs (u_w u)) -> simTo u (u_w u) = (Ok d, w') ->
  exists p, perfOf d = Some p /\
  match dp_primary p with
  | None => forall h, In h (w_hs (u_w u)) -> h_vip h = false
  | Some s => exists i h, nth_error (w_hs (u_w u)) i = Some h /\ nth_error (u_names u) i = Some s /\ h_vip h = true /\
      forall j hj, nth_error (w_hs (u_w u)) j = Some hj -> h_vip hj = true -> (j <= i)%nat
  end.
Proof. exact C87_primary_fact. Qed.
Print Assumptions C87_primary.

(** So the natural claim, that priority survives a round trip, is false: the first of two priority elements loses it. *)
Theorem C87_refuted : exists itp junk d w' v, simTo exTwoVips (u_w exTwoVips) = (Ok d, w') /\ simFrom itp junk d exTwoVips = Ok v /\
  map (@h_vip float) (w_hs (u_w exTwoVips)) = [true; true; false] /\ map (@h_vip float) (w_hs (u_w v)) = [false; true; false].
Proof. exact C87_refuted_fact. Qed.
Print Assumptions C87_refuted.

Example C87_example : exists v p, simFrom (fun _ _ _ _ => fofZ 1) (exHS TResistance true None exUpper [] [] 0) exNames exTwoVips = Ok v /\ perfOf exNames = Some p /\
  map (@h_backup float) (w_hs (u_w v)) = [Some 0%nat; Some 3%nat; None; None; None] /\ map (@h_vip float) (w_hs (u_w v)) = [false; false; false; false; true].
Proof. exact C87_example_fact. Qed.
