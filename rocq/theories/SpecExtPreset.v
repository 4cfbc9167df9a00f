(** Notions in which the properties of the preset units with an external compressor are stated *)

From Coq Require Import Reals List.
From Verif Require Import Num Base Types HeatSrc Legacy ExtPreset ExtTable.
Import ListNotations.
Local Open Scope R_scope.

(** a map that predicts positive input and efficiency at all outside temperatures from [a0] to [a1] and the water temperatures [C] *)
Definition deliversHeat (ev : R -> R -> R -> perf R) (a0 a1 : R) (C : R -> Prop) : Prop :=
  forall sp a c, a0 <= a <= a1 -> C c -> 0 < p_in (ev sp a c) /\ 0 < p_cop (ev sp a c).
(** the compressors of a unit deliver heat at the air temperature [air] and the water temperatures [D] *)
Definition heatsAt (hs : list (hsrc R)) (air : R) (D : R -> Prop) : Prop :=
  forall h, In h hs -> h_type h = TCompressor -> forall (u : hpwh R) c, D c -> exists q, getPerformance u h air c = Ok q /\ 0 < p_out q.

(** the presets that share a map *)
Definition sancos : list xmodel := [X_Sanco83; X_SancoGS3_45HPA_US_SP; X_Sanco119; X_Sanco43].
