(** Queries about the compressor and about single temperatures (/repo/src/HPWH.cc) *)

From Coq Require Import ZArith String List Bool.
From Verif Require Import Num Base Units Types TankM HeatSrc Setters Report.
Import ListNotations.
Local Open Scope string_scope.

Section Queries.
  Context {T : Type} `{Num T}.
  Local Open Scope num_scope.
  Notation W := (hpwh T).

  (** HPWH.cc:2257-2265 getCompressorCoilConfig (the enumeration instead of its number) *)
  Definition getCompressorCoilConfig (w : W) : outc coil :=
    if negb (hasCompressor w) then noCompressor else obind (compressor w) (fun h => Ok (h_config h)).
  (** HPWH.cc:2267-2275 isCompressorMultipass *)
  Definition isCompressorMultipass (w : W) : outc bool :=
    if negb (hasCompressor w) then noCompressor else obind (compressor w) (fun h => Ok (h_multipass h)).
  (** HPWH.cc:2287-2295 isCompressorExternal, Condenser.cc:1284 *)
  Definition isCompressorExternal (w : W) : outc bool :=
    if negb (hasCompressor w) then noCompressor
    else obind (compressor w) (fun h => Ok (match h_config h with External => true | _ => false end)).
  (** HPWH.cc:2317-2336 getExternalMPFlowRate *)
  Definition getExternalMPFlowRate (u : units) (w : W) : outc T :=
    obind (isExternalMultipass w) (fun mp =>
    if negb mp then Err "Does not have an external multipass heat source."
    else obind (compressor w) (fun h =>
      match u with U_LPS => Ok (h_mpFlow h) | U_GPM => Ok (LPS_TO_GPM (h_mpFlow h)) | _ => badUnits end)).
  (** HPWH.cc:2338-2359 getCompressorMinRuntime *)
  Definition getCompressorMinRuntime (u : units) (w : W) : outc T :=
    if negb (hasCompressor w) then noCompressor
    else match u with
         | U_MIN => Ok #10
         | U_SEC => Ok (MIN_TO_SEC #10)
         | U_HR => Ok (MIN_TO_HR #10)
         | _ => badUnits
         end.
  (** HPWH.cc:1766-1780 getTankNodeTemp *)
  Definition getTankNodeTemp (i : Z) (u : units) (w : W) : outc T := obind (getNodeT i (w_tank w)) (fun t => tempFromC t u).
  (** HPWH.cc:1782-1796 getNthSimTcouple *)
  Definition getNthSimTcouple (i n : Z) (u : units) (w : W) : outc T := obind (nthThermocouple i n (w_tank w)) (fun t => tempFromC t u).
End Queries.
