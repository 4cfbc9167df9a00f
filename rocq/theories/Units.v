(** Physical constants and unit conversions.
    Models /repo/src/HPWH.hh:1595-1643 and /repo/src/HPWH.cc:64-74. *)

From Coq Require Import ZArith List Bool.
From Verif Require Import Num.

(** /repo/src/HPWH.hh:325-347 enum UNITS *)
Inductive units : Set :=
| U_C | U_F | U_KWH | U_BTU | U_KJ | U_KW | U_BTUperHr | U_GAL | U_L | U_kJperHrC | U_BTUperHrF
| U_FT | U_M | U_FT2 | U_M2 | U_MIN | U_SEC | U_HR | U_GPM | U_LPS.

Section Units.
  Context {T : Type} `{Num T}.
  Local Open Scope num_scope.

  (** HPWH.cc:64-68 *)
  Definition DENSITYWATER : T := dec 995 1000.
  Definition KWATER : T := dec 62 100.
  Definition CPWATER : T := dec 418 100.
  Definition TOL_MINVALUE : T := dec 1 10000.
  (** HPWH.cc:69 (float, exactly representable) *)
  Definition UNINITIALIZED_LOCATIONTEMP : T := #(-500).
  (** the local constexpr tolT_C = 1.e-9 used in several functions *)
  Definition tolT : T := dec 1 1000000000.

  (** HPWH.hh:1595-1608.  [BTUperKWH] is written 3412.14163312794 in the source; at the
      real instance it is that decimal number. *)
  Definition BTUperKWH : T := dec 341214163312794 100000000000.
  Definition FperC : T := #9 / #5.
  Definition offsetF : T := #32.
  Definition absolute_zeroT : T := dec (-27315) 100.
  Definition sec_per_min : T := #60.
  Definition min_per_hr : T := #60.
  Definition sec_per_hr : T := sec_per_min * min_per_hr.
  Definition L_per_gal : T := dec 378541 100000.
  Definition ft_per_m : T := dec 32808 10000.

  (** HPWH.hh:1611-1643 *)
  Definition dF_TO_dC (t : T) : T := t / FperC.
  Definition dC_TO_dF (t : T) : T := FperC * t.
  Definition F_TO_C (t : T) : T := (t - offsetF) / FperC.
  Definition C_TO_F (t : T) : T := (FperC * t) + offsetF.
  Definition K_TO_C (k : T) : T := k + absolute_zeroT.
  Definition C_TO_K (c : T) : T := c - absolute_zeroT.
  Definition K_TO_F (k : T) : T := C_TO_F (K_TO_C k).
  Definition F_TO_K (f : T) : T := C_TO_K (F_TO_C f).
  Definition KWH_TO_BTU (kwh : T) : T := BTUperKWH * kwh.
  Definition KWH_TO_KJ (kwh : T) : T := kwh * sec_per_hr.
  Definition BTU_TO_KWH (btu : T) : T := btu / BTUperKWH.
  Definition KW_TO_W (kw : T) : T := #1000 * kw.
  Definition W_TO_KW (w : T) : T := w / #1000.
  Definition W_TO_BTUperH (w : T) : T := w * BTUperKWH / #1000.
  Definition KJ_TO_KWH (kj : T) : T := kj / sec_per_hr.
  Definition BTU_TO_KJ (btu : T) : T := btu * sec_per_hr / BTUperKWH.
  Definition GAL_TO_L (g : T) : T := g * L_per_gal.
  Definition L_TO_GAL (l : T) : T := l / L_per_gal.
  Definition L_TO_FT3 (l : T) : T := l / dec 2831685 100000.
  Definition UAf_TO_UAc (ua : T) : T := ua * dec 18 10 / dec 9478 10000.
  Definition GPM_TO_LPS (gpm : T) : T := gpm * L_per_gal / sec_per_min.
  Definition LPS_TO_GPM (lps : T) : T := lps * sec_per_min / L_per_gal.
  Definition FT_TO_M (ft : T) : T := ft / ft_per_m.
  Definition FT2_TO_M2 (ft2 : T) : T := FT_TO_M (FT_TO_M ft2).
  Definition M_TO_FT (m : T) : T := ft_per_m * m.
  Definition M2_TO_FT2 (m2 : T) : T := M_TO_FT (M_TO_FT m2).
  Definition MIN_TO_SEC (m : T) : T := m * sec_per_min.
  Definition MIN_TO_HR (m : T) : T := m / min_per_hr.
  (** HPWH.hh:1661-1665 convertTempToC *)
  Definition convertTempToC (t : T) (u : units) (absolute : bool) : T :=
    match u with
    | U_C => t
    | _ => if absolute then F_TO_C t else dF_TO_dC t
    end.
  (** HPWH.cc:74 *)
  Definition MINSINGLEPASSLIFT : T := dF_TO_dC #15.
End Units.
