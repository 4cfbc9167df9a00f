(** Properties of replacing the performance map of a unit.  Statements only; proofs in PerfSwapFacts.v. *)

From Coq Require Import ZArith String List Bool Reals Lra Lia.
From Verif Require Import Num Base Units Utils Types TankM Logic HeatSrc Step Setters Config Perf Fitter PerfSwap Spec SpecState.
From Verif Require Import RList FrameProofs SourcesFacts Example.
From Verif Require Import PerfSwapFacts.
Import ListNotations.
Local Open Scope R_scope.

(** Without a compressor the request is ignored. *)
Theorem C111_ignored : forall mk (w : hpwh R), (forall h, In h (w_hs w) -> h_type h <> TCompressor) -> makeCondenserPerformance mk w = w.
Proof. exact C111_ignored_fact. Qed.
Print Assumptions C111_ignored.

(** With compressors the map of the first is replaced; no other source and nothing else of the unit changes. *)
Theorem C111_first : forall mk (w : hpwh R) h, In h (w_hs w) -> h_type h = TCompressor -> exists i g, nth_error (w_hs w) i = Some g /\ h_type g = TCompressor /\ (forall j x, (j < i)%nat -> nth_error (w_hs w) j = Some x -> h_type x = TResistance) /\
  nth_error (w_hs (makeCondenserPerformance mk w)) i = Some (set_h_eval (mk g) g) /\ (forall j, j <> i -> nth_error (w_hs (makeCondenserPerformance mk w)) j = nth_error (w_hs w) j) /\
  makeCondenserPerformance mk w = set_w_hs (w_hs (makeCondenserPerformance mk w)) w.
Proof. exact C111_first_fact. Qed.
Print Assumptions C111_first.

(** In a unit with one compressor and its indices computed, the compressor that the queries and the simulation know by its index has the new map, and is otherwise what it was. *)
Theorem C111_single : forall mk (w : hpwh R) i, let v := calcDerivedValues w in isCompAt (w_hs v) i -> (forall j, isCompAt (w_hs v) j -> j = i) ->
  exists h, compressor v = Ok h /\ compressor (makeCondenserPerformance mk v) = Ok (set_h_eval (mk h) h).
Proof. exact C111_single_fact. Qed.
Print Assumptions C111_single.

(** With two or more, the index is that of the last: the compressor known by it keeps its map. *)
Theorem C111_several : forall mk (w : hpwh R) i j, let v := calcDerivedValues w in isCompAt (w_hs v) i -> isCompAt (w_hs v) j -> (i < j)%nat -> exists h, compressor v = Ok h /\ compressor (makeCondenserPerformance mk v) = Ok h.
Proof. exact C111_several_fact. Qed.
Print Assumptions C111_several.

(** The example unit has one compressor; giving its list of sources twice makes two. *)
Example C111_example : (exists i, isCompAt (w_hs (calcDerivedValues (exUnit (repeat 50 12)))) i /\ forall j, isCompAt (w_hs (calcDerivedValues (exUnit (repeat 50 12)))) j -> j = i) /\
  exists i j, (i < j)%nat /\ isCompAt (w_hs (calcDerivedValues (set_w_hs (exSources ++ exSources) (exUnit (repeat 50 12))))) i /\ isCompAt (w_hs (calcDerivedValues (set_w_hs (exSources ++ exSources) (exUnit (repeat 50 12))))) j.
Proof. exact C111_example_fact. Qed.
