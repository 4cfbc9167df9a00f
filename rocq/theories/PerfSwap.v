(** Replacing the performance map of a unit (HPWH.cc:1802-1833) *)

From Coq Require Import ZArith List.
From Verif Require Import Num Base Types HeatSrc Perf Fitter.

Section PerfSwap.
  Context {T : Type} `{Num T}.
  Notation W := (hpwh T).

  (** HPWH.cc:1802-1811 getCompressor, 1813-1832 makeCondenserPerformance (its three overloads, which differ in [mk] only): assigns evaluatePerformance of getCompressor(), nothing without one.
      What is assigned may depend on the condenser, which the closure of PerformancePoly_CWHS_SP keeps. *)
  Definition makeCondenserPerformance (mk : hsrc T -> T -> T -> T -> perf T) (w : W) : W :=
    set_w_hs (onFirstComp (fun h => set_h_eval (mk h) h) (w_hs w)) w.
End PerfSwap.
