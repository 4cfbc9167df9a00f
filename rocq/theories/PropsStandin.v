(** Properties of what heats in place of a locked-out heat source.  Statements only; proofs in StandinFacts.v. *)

From Coq Require Import ZArith String List Bool Reals Lra Lia Floats.
From Verif Require Import Num FNum Base Units Utils Types TankM Logic HeatSrc Step SpecLock.
From Verif Require Import RList FrameProofs SimFrame ControlProofs ChoiceProofs SeqProofs Example.
From Verif Require Import StandinFacts.
Import ListNotations.

(** No stand-in runs for a locked-out source while the VIP element is on, while its back-up element is on by itself, while resistance is locked out, or when the source is off: nothing is heated, nothing but the lock changes. *)
Theorem C112_nothing : forall (T : Type) (N : Num T) fuel dr amb i b v m (w : hpwh T) h hb,
  nth_error (w_hs w) i = Some h -> h_backup h = Some b -> nth_error (w_hs w) b = Some hb -> h_type hb = TResistance ->
  (shouldDRLockOut (h_type h) dr = true \/ shouldDRLockOut (h_type h) dr = false /\ h_type h = TCompressor /\ exists w1, toLockOrUnlock i amb w = (Ok true, w1)) ->
  h_on h = false \/ h_on hb = true \/ shouldDRLockOut TResistance dr = true \/ w_vipIx w = Z.of_nat v /\ (exists hv, nth_error (w_hs w) v = Some hv /\ h_on hv = true) ->
  exists w', heatOne fuel dr amb i m w = (Ok m, w') /\ locksOnly w w'.
Proof. exact C112_nothing_fact. Qed.
Print Assumptions C112_nothing.

(** Otherwise the back-up element heats in its place: if it runs for all the time left, the outcome is that of heating with it, after a change of locks alone. *)
Theorem C112_stands_in : forall (T : Type) (N : Num T) fuel dr amb i b m (w : hpwh T) h hb,
  nth_error (w_hs w) i = Some h -> h_backup h = Some b -> nth_error (w_hs w) b = Some hb -> h_type hb = TResistance ->
  (shouldDRLockOut (h_type h) dr = true \/ shouldDRLockOut (h_type h) dr = false /\ h_type h = TCompressor /\ exists w1, toLockOrUnlock i amb w = (Ok true, w1)) ->
  h_on h = true -> h_on hb = false -> shouldDRLockOut TResistance dr = false ->
  (w_vipIx w < 0)%Z \/ (exists v hv, w_vipIx w = Z.of_nat v /\ nth_error (w_hs w) v = Some hv /\ h_on hv = false) ->
  exists w1, locksOnly w w1 /\ forall w2 hb2, addHeatParent fuel b amb m w1 = (Ok tt, w2) -> nth_error (w_hs w2) b = Some hb2 -> nltb (h_runtime hb2) m = false -> heatOne fuel dr amb i m w = (Ok m, w2).
Proof. exact C112_stands_in_fact. Qed.
Print Assumptions C112_stands_in.

(** The compressor of the example unit is on in air of -10 C, below its range. With the VIP element on no stand-in runs; with it off the lower element runs for the minute given and the compressor reports nothing. *)
Example C112_example : let u vip := set_w_hs (updHS (updHS exSources 0 (set_h_on vip)) 2 (set_h_on true)) (exUnit (T:=float) (map fofZ [20; 30; 45; 50]%Z)) in
  (exists w1, toLockOrUnlock 2 (fofZ (-10)) (u true) = (Ok true, w1)) /\ (exists w', heatOne 100 0 (fofZ (-10)) 2 (fofZ 1) (u true) = (Ok (fofZ 1), w') /\ map h_runtime (w_hs w') = [fofZ 0; fofZ 0; fofZ 0]) /\
  (exists w1, toLockOrUnlock 2 (fofZ (-10)) (u false) = (Ok true, w1)) /\ exists w', heatOne 100 0 (fofZ (-10)) 2 (fofZ 1) (u false) = (Ok (fofZ 1), w') /\ map h_runtime (w_hs w') = [fofZ 0; fofZ 1; fofZ 0].
Proof. exact C112_example_fact. Qed.

(** The VIP element is asked about only for a locked-out source: the back-up of a compressor that reaches its maximum within the step runs beside the VIP element, here in a step from a state with everything off. *)
Theorem C112_beside_vip_refuted : exists (w w' : hpwh float) v b c, Forall (fun h => h_on h = false) (w_hs w) /\ w_vipIx w = 0%Z /\ runOneStep 100 (exIn (fofZ 0) (fofZ 20) 0) w = (Ok tt, w') /\ w_hs w' = [v; b; c] /\
  h_vip v = true /\ h_on v = true /\ nltb (fofZ 0) (h_eIn v) = true /\ h_type b = TResistance /\ h_turnOn b = [] /\ h_on b = true /\ nltb (fofZ 0) (h_eIn b) = true /\ h_type c = TCompressor /\ h_backup c = Some 1%nat.
Proof. exact C112_beside_vip_refuted_fact. Qed.
Print Assumptions C112_beside_vip_refuted.
