(** The descriptions of the preset units of ExtPreset.v, one for each preset of /repo/src/HPWHpresets.cc:725-2171,
    3796-3977 (the lines of the branch are given).  Constants are written as in the code. *)

From Coq Require Import ZArith String List Bool.
From Verif Require Import Types Legacy ExtPreset.
Import ListNotations.
Local Open Scope string_scope.
Local Open Scope Z_scope.

(** the argument of setCondensity of single-pass and of multi-pass compressors *)
Definition bottomShape : list Z := [1; 0; 0; 0; 0; 0; 0; 0; 0; 0; 0; 0].
Definition fourthShape : list Z := [0; 0; 0; 1; 0; 0; 0; 0; 0; 0; 0; 0].

(** hpwh_presets::MODELS, the presets with an external compressor *)
Inductive xmodel : Set :=
| X_ColmacCxV_5_SP
| X_ColmacCxA_10_SP
| X_ColmacCxA_15_SP
| X_ColmacCxA_20_SP
| X_ColmacCxA_25_SP
| X_ColmacCxA_30_SP
| X_ColmacCxV_5_MP
| X_ColmacCxA_10_MP
| X_ColmacCxA_15_MP
| X_ColmacCxA_20_MP
| X_ColmacCxA_25_MP
| X_ColmacCxA_30_MP
| X_NyleC25A_SP
| X_NyleC60A_SP
| X_NyleC90A_SP
| X_NyleC125A_SP
| X_NyleC185A_SP
| X_NyleC250A_SP
| X_NyleC60A_C_SP
| X_NyleC90A_C_SP
| X_NyleC125A_C_SP
| X_NyleC185A_C_SP
| X_NyleC250A_C_SP
| X_NyleC60A_MP
| X_NyleC90A_MP
| X_NyleC125A_MP
| X_NyleC185A_MP
| X_NyleC250A_MP
| X_NyleC60A_C_MP
| X_NyleC90A_C_MP
| X_NyleC125A_C_MP
| X_NyleC185A_C_MP
| X_NyleC250A_C_MP
| X_RheemHPHD60
| X_RheemHPHD135
| X_Mitsubishi_QAHV_N136TAU_HPB_SP
| X_Sanco83
| X_SancoGS3_45HPA_US_SP
| X_Sanco119
| X_Sanco43
| X_TamScalable_SP
| X_TamScalable_SP_2X
| X_TamScalable_SP_Half
| X_Scalable_MP.

(** HPWHpresets.cc:725-804 *)
Definition xColmacCxV_5_SP : xpreset :=
  mkxpreset 96 (FtoC (Lit 135 1)) false false false (Lit 315 1) (Lit 7 1) (Some (Lit 200 1))
    bottomShape false XTop (FtoC (Lit (-4) 1)) None (Lit 0 1) (FtoC (Lit 140 1))
    [XNode "fourth node" 4 (DFtoDC (Lit 15 1)) false CLess false] None (XNode "lowest node" 1 (DFtoDC (Lit 15 1)) false CGreater true)
    None true None None None None.

(** HPWHpresets.cc:725-766, 805-840 *)
Definition xColmacCxA_10_SP : xpreset :=
  mkxpreset 96 (FtoC (Lit 135 1)) false false false (Lit 315 1) (Lit 7 1) (Some (Lit 500 1))
    bottomShape false XTop (FtoC (Lit 40 1)) None (Lit 0 1) (FtoC (Lit 160 1))
    [XNode "fourth node" 4 (DFtoDC (Lit 15 1)) false CLess false] None (XNode "lowest node" 1 (DFtoDC (Lit 15 1)) false CGreater true)
    None true None None None None.

(** HPWHpresets.cc:725-766, 841-872 *)
Definition xColmacCxA_15_SP : xpreset :=
  mkxpreset 96 (FtoC (Lit 135 1)) false false false (Lit 315 1) (Lit 7 1) (Some (Lit 600 1))
    bottomShape false XTop (FtoC (Lit 40 1)) None (Lit 0 1) (FtoC (Lit 160 1))
    [XNode "fourth node" 4 (DFtoDC (Lit 15 1)) false CLess false] None (XNode "lowest node" 1 (DFtoDC (Lit 15 1)) false CGreater true)
    None true None None None None.

(** HPWHpresets.cc:725-766, 873-904 *)
Definition xColmacCxA_20_SP : xpreset :=
  mkxpreset 96 (FtoC (Lit 135 1)) false false false (Lit 315 1) (Lit 7 1) (Some (Lit 800 1))
    bottomShape false XTop (FtoC (Lit 40 1)) None (Lit 0 1) (FtoC (Lit 160 1))
    [XNode "fourth node" 4 (DFtoDC (Lit 15 1)) false CLess false] None (XNode "lowest node" 1 (DFtoDC (Lit 15 1)) false CGreater true)
    None true None None None None.

(** HPWHpresets.cc:725-766, 905-936 *)
Definition xColmacCxA_25_SP : xpreset :=
  mkxpreset 96 (FtoC (Lit 135 1)) false false false (Lit 315 1) (Lit 7 1) (Some (Lit 1000 1))
    bottomShape false XTop (FtoC (Lit 40 1)) None (Lit 0 1) (FtoC (Lit 160 1))
    [XNode "fourth node" 4 (DFtoDC (Lit 15 1)) false CLess false] None (XNode "lowest node" 1 (DFtoDC (Lit 15 1)) false CGreater true)
    None true None None None None.

(** HPWHpresets.cc:725-766, 937-968 *)
Definition xColmacCxA_30_SP : xpreset :=
  mkxpreset 96 (FtoC (Lit 135 1)) false false false (Lit 315 1) (Lit 7 1) (Some (Lit 1200 1))
    bottomShape false XTop (FtoC (Lit 40 1)) None (Lit 0 1) (FtoC (Lit 160 1))
    [XNode "fourth node" 4 (DFtoDC (Lit 15 1)) false CLess false] None (XNode "lowest node" 1 (DFtoDC (Lit 15 1)) false CGreater true)
    None true None None None None.

(** HPWHpresets.cc:973-1042 *)
Definition xColmacCxV_5_MP : xpreset :=
  mkxpreset 24 (FtoC (Lit 135 1)) false false false (Lit 315 1) (Lit 7 1) (Some (Lit 200 1))
    fourthShape true XThird (FtoC (Lit (-4) 1)) (Some (FtoC (Lit 105 1))) (Lit 0 1) (FtoC (Lit 140 1))
    [XNode "fourth node" 4 (DFtoDC (Lit 5 1)) false CLess false] None (XNode "fourth node" 4 (DFtoDC (Lit 0 1)) false CGreater false)
    (Some (Lit 9 1)) true None None None None.

(** HPWHpresets.cc:973-1012, 1049-1070 *)
Definition xColmacCxA_10_MP : xpreset :=
  mkxpreset 24 (FtoC (Lit 135 1)) false false false (Lit 315 1) (Lit 7 1) (Some (Lit 500 1))
    fourthShape true XThird (FtoC (Lit 40 1)) (Some (FtoC (Lit 105 1))) (Lit 0 1) (FtoC (Lit 160 1))
    [XNode "fourth node" 4 (DFtoDC (Lit 5 1)) false CLess false] None (XNode "fourth node" 4 (DFtoDC (Lit 0 1)) false CGreater false)
    (Some (Lit 18 1)) true None None None None.

(** HPWHpresets.cc:973-1012, 1071-1092 *)
Definition xColmacCxA_15_MP : xpreset :=
  mkxpreset 24 (FtoC (Lit 135 1)) false false false (Lit 315 1) (Lit 7 1) (Some (Lit 600 1))
    fourthShape true XThird (FtoC (Lit 40 1)) (Some (FtoC (Lit 105 1))) (Lit 0 1) (FtoC (Lit 160 1))
    [XNode "fourth node" 4 (DFtoDC (Lit 5 1)) false CLess false] None (XNode "fourth node" 4 (DFtoDC (Lit 0 1)) false CGreater false)
    (Some (Lit 26 1)) true None None None None.

(** HPWHpresets.cc:973-1012, 1093-1116 *)
Definition xColmacCxA_20_MP : xpreset :=
  mkxpreset 24 (FtoC (Lit 135 1)) false false false (Lit 315 1) (Lit 7 1) (Some (Lit 800 1))
    fourthShape true XThird (FtoC (Lit 40 1)) (Some (FtoC (Lit 105 1))) (Lit 0 1) (FtoC (Lit 160 1))
    [XNode "fourth node" 4 (DFtoDC (Lit 5 1)) false CLess false] None (XNode "fourth node" 4 (DFtoDC (Lit 0 1)) false CGreater false)
    (Some (Lit 36 1)) true None None None None.

(** HPWHpresets.cc:973-1012, 1117-1138 *)
Definition xColmacCxA_25_MP : xpreset :=
  mkxpreset 24 (FtoC (Lit 135 1)) false false false (Lit 315 1) (Lit 7 1) (Some (Lit 1000 1))
    fourthShape true XThird (FtoC (Lit 40 1)) (Some (FtoC (Lit 105 1))) (Lit 0 1) (FtoC (Lit 160 1))
    [XNode "fourth node" 4 (DFtoDC (Lit 5 1)) false CLess false] None (XNode "fourth node" 4 (DFtoDC (Lit 0 1)) false CGreater false)
    (Some (Lit 32 1)) true None None None None.

(** HPWHpresets.cc:973-1012, 1139-1160 *)
Definition xColmacCxA_30_MP : xpreset :=
  mkxpreset 24 (FtoC (Lit 135 1)) false false false (Lit 315 1) (Lit 7 1) (Some (Lit 1200 1))
    fourthShape true XThird (FtoC (Lit 40 1)) (Some (FtoC (Lit 105 1))) (Lit 0 1) (FtoC (Lit 160 1))
    [XNode "fourth node" 4 (DFtoDC (Lit 5 1)) false CLess false] None (XNode "fourth node" 4 (DFtoDC (Lit 0 1)) false CGreater false)
    (Some (Lit 41 1)) true None None None None.

(** HPWHpresets.cc:1164-1436 *)
Definition xNyleC25A_SP : xpreset :=
  mkxpreset 96 (FtoC (Lit 135 1)) false false false (Lit 315 1) (Lit 7 1) (Some (Lit 200 1))
    bottomShape false XTop (FtoC (Lit 40 1)) (Some (FtoC (Lit 120 1))) (Lit 0 1) (FtoC (Lit 160 1))
    [XNode "fourth node" 4 (DFtoDC (Lit 15 1)) false CLess false] None (XNode "lowest node" 1 (DFtoDC (Lit 15 1)) false CGreater true)
    None true None None None None.

(** HPWHpresets.cc:1164-1436 *)
Definition xNyleC60A_SP : xpreset :=
  mkxpreset 96 (FtoC (Lit 135 1)) false false false (Lit 315 1) (Lit 7 1) (Some (Lit 300 1))
    bottomShape false XTop (FtoC (Lit 40 1)) (Some (FtoC (Lit 120 1))) (Lit 0 1) (FtoC (Lit 160 1))
    [XNode "fourth node" 4 (DFtoDC (Lit 15 1)) false CLess false] None (XNode "lowest node" 1 (DFtoDC (Lit 15 1)) false CGreater true)
    None true None None None None.

(** HPWHpresets.cc:1164-1436 *)
Definition xNyleC90A_SP : xpreset :=
  mkxpreset 96 (FtoC (Lit 135 1)) false false false (Lit 315 1) (Lit 7 1) (Some (Lit 400 1))
    bottomShape false XTop (FtoC (Lit 40 1)) (Some (FtoC (Lit 120 1))) (Lit 0 1) (FtoC (Lit 160 1))
    [XNode "fourth node" 4 (DFtoDC (Lit 15 1)) false CLess false] None (XNode "lowest node" 1 (DFtoDC (Lit 15 1)) false CGreater true)
    None true None None None None.

(** HPWHpresets.cc:1164-1436 *)
Definition xNyleC125A_SP : xpreset :=
  mkxpreset 96 (FtoC (Lit 135 1)) false false false (Lit 315 1) (Lit 7 1) (Some (Lit 500 1))
    bottomShape false XTop (FtoC (Lit 40 1)) (Some (FtoC (Lit 120 1))) (Lit 0 1) (FtoC (Lit 160 1))
    [XNode "fourth node" 4 (DFtoDC (Lit 15 1)) false CLess false] None (XNode "lowest node" 1 (DFtoDC (Lit 15 1)) false CGreater true)
    None true None None None None.

(** HPWHpresets.cc:1164-1436 *)
Definition xNyleC185A_SP : xpreset :=
  mkxpreset 96 (FtoC (Lit 135 1)) false false false (Lit 315 1) (Lit 7 1) (Some (Lit 800 1))
    bottomShape false XTop (FtoC (Lit 40 1)) (Some (FtoC (Lit 120 1))) (Lit 0 1) (FtoC (Lit 160 1))
    [XNode "fourth node" 4 (DFtoDC (Lit 15 1)) false CLess false] None (XNode "lowest node" 1 (DFtoDC (Lit 15 1)) false CGreater true)
    None true None None None None.

(** HPWHpresets.cc:1164-1436 *)
Definition xNyleC250A_SP : xpreset :=
  mkxpreset 96 (FtoC (Lit 135 1)) false false false (Lit 315 1) (Lit 7 1) (Some (Lit 800 1))
    bottomShape false XTop (FtoC (Lit 40 1)) (Some (FtoC (Lit 120 1))) (Lit 0 1) (FtoC (Lit 160 1))
    [XNode "fourth node" 4 (DFtoDC (Lit 15 1)) false CLess false] None (XNode "lowest node" 1 (DFtoDC (Lit 15 1)) false CGreater true)
    None true None None None None.

(** HPWHpresets.cc:1164-1436 *)
Definition xNyleC60A_C_SP : xpreset :=
  mkxpreset 96 (FtoC (Lit 135 1)) false false false (Lit 315 1) (Lit 7 1) (Some (Lit 300 1))
    bottomShape false XTop (FtoC (Lit 35 1)) (Some (FtoC (Lit 120 1))) (Lit 0 1) (FtoC (Lit 160 1))
    [XNode "fourth node" 4 (DFtoDC (Lit 15 1)) false CLess false] None (XNode "lowest node" 1 (DFtoDC (Lit 15 1)) false CGreater true)
    None true (Some (FtoC (Lit 140 1), FtoC (Lit 40 1))) None None None.

(** HPWHpresets.cc:1164-1436 *)
Definition xNyleC90A_C_SP : xpreset :=
  mkxpreset 96 (FtoC (Lit 135 1)) false false false (Lit 315 1) (Lit 7 1) (Some (Lit 400 1))
    bottomShape false XTop (FtoC (Lit 35 1)) (Some (FtoC (Lit 120 1))) (Lit 0 1) (FtoC (Lit 160 1))
    [XNode "fourth node" 4 (DFtoDC (Lit 15 1)) false CLess false] None (XNode "lowest node" 1 (DFtoDC (Lit 15 1)) false CGreater true)
    None true (Some (FtoC (Lit 140 1), FtoC (Lit 40 1))) None None None.

(** HPWHpresets.cc:1164-1436 *)
Definition xNyleC125A_C_SP : xpreset :=
  mkxpreset 96 (FtoC (Lit 135 1)) false false false (Lit 315 1) (Lit 7 1) (Some (Lit 500 1))
    bottomShape false XTop (FtoC (Lit 35 1)) (Some (FtoC (Lit 120 1))) (Lit 0 1) (FtoC (Lit 160 1))
    [XNode "fourth node" 4 (DFtoDC (Lit 15 1)) false CLess false] None (XNode "lowest node" 1 (DFtoDC (Lit 15 1)) false CGreater true)
    None true (Some (FtoC (Lit 140 1), FtoC (Lit 40 1))) None None None.

(** HPWHpresets.cc:1164-1436 *)
Definition xNyleC185A_C_SP : xpreset :=
  mkxpreset 96 (FtoC (Lit 135 1)) false false false (Lit 315 1) (Lit 7 1) (Some (Lit 800 1))
    bottomShape false XTop (FtoC (Lit 35 1)) (Some (FtoC (Lit 120 1))) (Lit 0 1) (FtoC (Lit 160 1))
    [XNode "fourth node" 4 (DFtoDC (Lit 15 1)) false CLess false] None (XNode "lowest node" 1 (DFtoDC (Lit 15 1)) false CGreater true)
    None true (Some (FtoC (Lit 140 1), FtoC (Lit 40 1))) None None None.

(** HPWHpresets.cc:1164-1436 *)
Definition xNyleC250A_C_SP : xpreset :=
  mkxpreset 96 (FtoC (Lit 135 1)) false false false (Lit 315 1) (Lit 7 1) (Some (Lit 800 1))
    bottomShape false XTop (FtoC (Lit 35 1)) (Some (FtoC (Lit 120 1))) (Lit 0 1) (FtoC (Lit 160 1))
    [XNode "fourth node" 4 (DFtoDC (Lit 15 1)) false CLess false] None (XNode "lowest node" 1 (DFtoDC (Lit 15 1)) false CGreater true)
    None true (Some (FtoC (Lit 140 1), FtoC (Lit 40 1))) None None None.

(** HPWHpresets.cc:1438-1658 *)
Definition xNyleC60A_MP : xpreset :=
  mkxpreset 24 (FtoC (Lit 135 1)) false false false (Lit 315 1) (Lit 7 1) (Some (Lit 360 1))
    fourthShape true XThird (FtoC (Lit 40 1)) (Some (FtoC (Lit 130 1))) (Lit 0 1) (FtoC (Lit 160 1))
    [XNode "fourth node" 4 (DFtoDC (Lit 5 1)) false CLess false] None (XNode "fourth node" 4 (DFtoDC (Lit 0 1)) false CGreater false)
    (Some (Lit 13 1)) true None None None None.

(** HPWHpresets.cc:1438-1658 *)
Definition xNyleC90A_MP : xpreset :=
  mkxpreset 24 (FtoC (Lit 135 1)) false false false (Lit 315 1) (Lit 7 1) (Some (Lit 480 1))
    fourthShape true XThird (FtoC (Lit 40 1)) (Some (FtoC (Lit 130 1))) (Lit 0 1) (FtoC (Lit 160 1))
    [XNode "fourth node" 4 (DFtoDC (Lit 5 1)) false CLess false] None (XNode "fourth node" 4 (DFtoDC (Lit 0 1)) false CGreater false)
    (Some (Lit 20 1)) true None None None None.

(** HPWHpresets.cc:1438-1658 *)
Definition xNyleC125A_MP : xpreset :=
  mkxpreset 24 (FtoC (Lit 135 1)) false false false (Lit 315 1) (Lit 7 1) (Some (Lit 600 1))
    fourthShape true XThird (FtoC (Lit 40 1)) (Some (FtoC (Lit 130 1))) (Lit 0 1) (FtoC (Lit 160 1))
    [XNode "fourth node" 4 (DFtoDC (Lit 5 1)) false CLess false] None (XNode "fourth node" 4 (DFtoDC (Lit 0 1)) false CGreater false)
    (Some (Lit 28 1)) true None None None None.

(** HPWHpresets.cc:1438-1658 *)
Definition xNyleC185A_MP : xpreset :=
  mkxpreset 24 (FtoC (Lit 135 1)) false false false (Lit 315 1) (Lit 7 1) (Some (Lit 960 1))
    fourthShape true XThird (FtoC (Lit 40 1)) (Some (FtoC (Lit 130 1))) (Lit 0 1) (FtoC (Lit 160 1))
    [XNode "fourth node" 4 (DFtoDC (Lit 5 1)) false CLess false] None (XNode "fourth node" 4 (DFtoDC (Lit 0 1)) false CGreater false)
    (Some (Lit 40 1)) true None None None None.

(** HPWHpresets.cc:1438-1658 *)
Definition xNyleC250A_MP : xpreset :=
  mkxpreset 24 (FtoC (Lit 135 1)) false false false (Lit 315 1) (Lit 7 1) (Some (Lit 960 1))
    fourthShape true XThird (FtoC (Lit 40 1)) (Some (FtoC (Lit 130 1))) (Lit 0 1) (FtoC (Lit 160 1))
    [XNode "fourth node" 4 (DFtoDC (Lit 5 1)) false CLess false] None (XNode "fourth node" 4 (DFtoDC (Lit 0 1)) false CGreater false)
    (Some (Lit 50 1)) true None None None None.

(** HPWHpresets.cc:1438-1658 *)
Definition xNyleC60A_C_MP : xpreset :=
  mkxpreset 24 (FtoC (Lit 135 1)) false false false (Lit 315 1) (Lit 7 1) (Some (Lit 360 1))
    fourthShape true XThird (FtoC (Lit 35 1)) (Some (FtoC (Lit 130 1))) (Lit 0 1) (FtoC (Lit 160 1))
    [XNode "fourth node" 4 (DFtoDC (Lit 5 1)) false CLess false] None (XNode "fourth node" 4 (DFtoDC (Lit 0 1)) false CGreater false)
    (Some (Lit 13 1)) true None (Some (Lit 45 10, Lit 5 1, Lit 40 1)) None None.

(** HPWHpresets.cc:1438-1658 *)
Definition xNyleC90A_C_MP : xpreset :=
  mkxpreset 24 (FtoC (Lit 135 1)) false false false (Lit 315 1) (Lit 7 1) (Some (Lit 480 1))
    fourthShape true XThird (FtoC (Lit 35 1)) (Some (FtoC (Lit 130 1))) (Lit 0 1) (FtoC (Lit 160 1))
    [XNode "fourth node" 4 (DFtoDC (Lit 5 1)) false CLess false] None (XNode "fourth node" 4 (DFtoDC (Lit 0 1)) false CGreater false)
    (Some (Lit 20 1)) true None (Some (Lit 54 10, Lit 5 1, Lit 40 1)) None None.

(** HPWHpresets.cc:1438-1658 *)
Definition xNyleC125A_C_MP : xpreset :=
  mkxpreset 24 (FtoC (Lit 135 1)) false false false (Lit 315 1) (Lit 7 1) (Some (Lit 600 1))
    fourthShape true XThird (FtoC (Lit 35 1)) (Some (FtoC (Lit 130 1))) (Lit 0 1) (FtoC (Lit 160 1))
    [XNode "fourth node" 4 (DFtoDC (Lit 5 1)) false CLess false] None (XNode "fourth node" 4 (DFtoDC (Lit 0 1)) false CGreater false)
    (Some (Lit 28 1)) true None (Some (Lit 9 1, Lit 5 1, Lit 40 1)) None None.

(** HPWHpresets.cc:1438-1658 *)
Definition xNyleC185A_C_MP : xpreset :=
  mkxpreset 24 (FtoC (Lit 135 1)) false false false (Lit 315 1) (Lit 7 1) (Some (Lit 960 1))
    fourthShape true XThird (FtoC (Lit 35 1)) (Some (FtoC (Lit 130 1))) (Lit 0 1) (FtoC (Lit 160 1))
    [XNode "fourth node" 4 (DFtoDC (Lit 5 1)) false CLess false] None (XNode "fourth node" 4 (DFtoDC (Lit 0 1)) false CGreater false)
    (Some (Lit 40 1)) true None (Some (Lit 72 10, Lit 5 1, Lit 40 1)) None None.

(** HPWHpresets.cc:1438-1658 *)
Definition xNyleC250A_C_MP : xpreset :=
  mkxpreset 24 (FtoC (Lit 135 1)) false false false (Lit 315 1) (Lit 7 1) (Some (Lit 960 1))
    fourthShape true XThird (FtoC (Lit 35 1)) (Some (FtoC (Lit 130 1))) (Lit 0 1) (FtoC (Lit 160 1))
    [XNode "fourth node" 4 (DFtoDC (Lit 5 1)) false CLess false] None (XNode "fourth node" 4 (DFtoDC (Lit 0 1)) false CGreater false)
    (Some (Lit 50 1)) true None (Some (Lit 18 1, Lit 5 1, Lit 40 1)) None None.

(** HPWHpresets.cc:1660-1727 *)
Definition xRheemHPHD60 : xpreset :=
  mkxpreset 24 (FtoC (Lit 135 1)) false false false (Lit 315 1) (Lit 7 1) (Some (Lit 250 1))
    fourthShape true XThird (FtoC (Lit 45 1)) (Some (FtoC (Lit 110 1))) (Lit 0 1) (FtoC (Lit 160 1))
    [XNode "fourth node" 4 (DFtoDC (Lit 5 1)) false CLess false] None (XNode "fourth node" 4 (DFtoDC (Lit 0 1)) false CGreater false)
    (Some (Lit 174 10)) true None None None None.

(** HPWHpresets.cc:1660-1702, 1728-1752 *)
Definition xRheemHPHD135 : xpreset :=
  mkxpreset 24 (FtoC (Lit 135 1)) false false false (Lit 315 1) (Lit 7 1) (Some (Lit 500 1))
    fourthShape true XThird (FtoC (Lit 45 1)) (Some (FtoC (Lit 110 1))) (Lit 0 1) (FtoC (Lit 160 1))
    [XNode "fourth node" 4 (DFtoDC (Lit 5 1)) false CLess false] None (XNode "fourth node" 4 (DFtoDC (Lit 0 1)) false CGreater false)
    (Some (Lit 3487 100)) true None None None None.

(** HPWHpresets.cc:1754-2017 *)
Definition xMitsubishi_QAHV_N136TAU_HPB_SP : xpreset :=
  mkxpreset 96 (Lit 65 1) false false false (Gal (Lit 500 1)) (Lit 12 1) None
    bottomShape false XTop (FtoC (Lit (-13) 1)) None (Lit 4 1) (FtoC (Lit 1761 10))
    [XNode "eighth node absolute" 4 (FtoC (Lit 110 1)) true CLess false] None (XNode "lowest node" 1 (DFtoDC (Lit 15 1)) false CGreater true)
    None false None None (Some (DFtoDC (Lit 10 1), DFtoDC (Lit 15 1), Lit 27 1)) None.

(** HPWHpresets.cc:2019-2106 *)
Definition xSanco83 : xpreset :=
  mkxpreset 96 (Lit 65 1) true true false (Lit 315 1) (Lit 7 1) None
    bottomShape false XTop (FtoC (Lit (-25) 1)) None (Lit 4 1) (FtoC (Lit 190 1))
    [XNode "eighth node absolute" 8 (FtoC (Lit 113 1)) true CLess false; XStandby (DFtoDC (Lit 82639 10000))] (Some (XNode "bottom node absolute" 0 (FtoC (Lit 113 1)) true CGreater false)) (XNode "bottom node absolute" 1 (FtoC (Lit 135 1)) true CGreater true)
    None false None None None None.

(** HPWHpresets.cc:2019-2106 *)
Definition xSancoGS3_45HPA_US_SP : xpreset :=
  mkxpreset 96 (Lit 65 1) true false false (Lit 315 1) (Lit 7 1) None
    bottomShape false XTop (FtoC (Lit (-25) 1)) None (Lit 4 1) (FtoC (Lit 190 1))
    [XNode "eighth node absolute" 8 (FtoC (Lit 113 1)) true CLess false] None (XNode "bottom node absolute" 1 (FtoC (Lit 135 1)) true CGreater true)
    None false None None None None.

(** HPWHpresets.cc:2019-2106 *)
Definition xSanco119 : xpreset :=
  mkxpreset 96 (Lit 65 1) true true false (Gal (Lit 119 1)) (Lit 9 1) None
    bottomShape false XTop (FtoC (Lit (-25) 1)) None (Lit 4 1) (FtoC (Lit 190 1))
    [XNode "eighth node absolute" 8 (FtoC (Lit 113 1)) true CLess false; XStandby (DFtoDC (Lit 82639 10000))] (Some (XNode "bottom node absolute" 0 (FtoC (Lit 113 1)) true CGreater false)) (XNode "bottom node absolute" 1 (FtoC (Lit 135 1)) true CGreater true)
    None false None None None None.

(** HPWHpresets.cc:2108-2171 *)
Definition xSanco43 : xpreset :=
  mkxpreset 96 (Lit 65 1) true true false (Lit 160 1) (Lit 5 1) None
    bottomShape false XTop (FtoC (Lit (-25) 1)) None (Lit 4 1) (FtoC (Lit 190 1))
    [XNode "fourth node absolute" 4 (FtoC (Lit 113 1)) true CLess false; XStandby (DFtoDC (Lit 82639 10000))] (Some (XNode "bottom node absolute" 0 (FtoC (Lit 113 1)) true CGreater false)) (XNode "bottom twelfth absolute" 1 (FtoC (Lit 135 1)) true CGreater true)
    None false None None None None.

(** HPWHpresets.cc:3796-3905 *)
Definition xTamScalable_SP : xpreset :=
  mkxpreset 24 (FtoC (Lit 135 1)) false false true (Lit 315 1) (Lit 7 1) (Some (Lit 600 1))
    bottomShape false XTop (FtoC (Lit 40 1)) None (Lit 0 1) (FtoC (Lit 160 1))
    [XNode "fourth node" 4 (DFtoDC (Lit 15 1)) false CLess false] None (XNode "lowest node" 1 (DFtoDC (Lit 15 1)) false CGreater true)
    None true None None None (Some (LMul (Lit 1 1) (Lit 30000 1), DFtoDC (Lit 15 1))).

(** HPWHpresets.cc:3796-3905 *)
Definition xTamScalable_SP_2X : xpreset :=
  mkxpreset 24 (FtoC (Lit 135 1)) false false true (Lit 315 1) (Lit 7 1) (Some (Lit 600 1))
    bottomShape false XTop (FtoC (Lit 40 1)) None (Lit 0 1) (FtoC (Lit 160 1))
    [XNode "fourth node" 4 (DFtoDC (Lit 15 1)) false CLess false] None (XNode "lowest node" 1 (DFtoDC (Lit 15 1)) false CGreater true)
    None true None None None (Some (LMul (Lit 2 1) (Lit 30000 1), DFtoDC (Lit 15 1))).

(** HPWHpresets.cc:3796-3905 *)
Definition xTamScalable_SP_Half : xpreset :=
  mkxpreset 24 (FtoC (Lit 135 1)) false false true (Lit 315 1) (Lit 7 1) (Some (Lit 600 1))
    bottomShape false XTop (FtoC (Lit 40 1)) None (Lit 0 1) (FtoC (Lit 160 1))
    [XNode "fourth node" 4 (DFtoDC (Lit 15 1)) false CLess false] None (XNode "lowest node" 1 (DFtoDC (Lit 15 1)) false CGreater true)
    None true None None None (Some (LMul (Lit 5 10) (Lit 30000 1), DFtoDC (Lit 15 1))).

(** HPWHpresets.cc:3907-3977 *)
Definition xScalable_MP : xpreset :=
  mkxpreset 24 (FtoC (Lit 135 1)) false false true (Lit 315 1) (Lit 7 1) (Some (Lit 600 1))
    fourthShape true XThird (FtoC (Lit 40 1)) (Some (FtoC (Lit 105 1))) (Lit 0 1) (FtoC (Lit 160 1))
    [XNode "fourth node" 4 (DFtoDC (Lit 5 1)) false CLess false] None (XNode "fourth node" 4 (DFtoDC (Lit 0 1)) false CGreater false)
    (Some (Lit 25 1)) true None None None (Some (Lit 30000 1, DFtoDC (Lit 30 1))).

Definition xpresetOf (m : xmodel) : xpreset :=
  match m with
  | X_ColmacCxV_5_SP => xColmacCxV_5_SP
  | X_ColmacCxA_10_SP => xColmacCxA_10_SP
  | X_ColmacCxA_15_SP => xColmacCxA_15_SP
  | X_ColmacCxA_20_SP => xColmacCxA_20_SP
  | X_ColmacCxA_25_SP => xColmacCxA_25_SP
  | X_ColmacCxA_30_SP => xColmacCxA_30_SP
  | X_ColmacCxV_5_MP => xColmacCxV_5_MP
  | X_ColmacCxA_10_MP => xColmacCxA_10_MP
  | X_ColmacCxA_15_MP => xColmacCxA_15_MP
  | X_ColmacCxA_20_MP => xColmacCxA_20_MP
  | X_ColmacCxA_25_MP => xColmacCxA_25_MP
  | X_ColmacCxA_30_MP => xColmacCxA_30_MP
  | X_NyleC25A_SP => xNyleC25A_SP
  | X_NyleC60A_SP => xNyleC60A_SP
  | X_NyleC90A_SP => xNyleC90A_SP
  | X_NyleC125A_SP => xNyleC125A_SP
  | X_NyleC185A_SP => xNyleC185A_SP
  | X_NyleC250A_SP => xNyleC250A_SP
  | X_NyleC60A_C_SP => xNyleC60A_C_SP
  | X_NyleC90A_C_SP => xNyleC90A_C_SP
  | X_NyleC125A_C_SP => xNyleC125A_C_SP
  | X_NyleC185A_C_SP => xNyleC185A_C_SP
  | X_NyleC250A_C_SP => xNyleC250A_C_SP
  | X_NyleC60A_MP => xNyleC60A_MP
  | X_NyleC90A_MP => xNyleC90A_MP
  | X_NyleC125A_MP => xNyleC125A_MP
  | X_NyleC185A_MP => xNyleC185A_MP
  | X_NyleC250A_MP => xNyleC250A_MP
  | X_NyleC60A_C_MP => xNyleC60A_C_MP
  | X_NyleC90A_C_MP => xNyleC90A_C_MP
  | X_NyleC125A_C_MP => xNyleC125A_C_MP
  | X_NyleC185A_C_MP => xNyleC185A_C_MP
  | X_NyleC250A_C_MP => xNyleC250A_C_MP
  | X_RheemHPHD60 => xRheemHPHD60
  | X_RheemHPHD135 => xRheemHPHD135
  | X_Mitsubishi_QAHV_N136TAU_HPB_SP => xMitsubishi_QAHV_N136TAU_HPB_SP
  | X_Sanco83 => xSanco83
  | X_SancoGS3_45HPA_US_SP => xSancoGS3_45HPA_US_SP
  | X_Sanco119 => xSanco119
  | X_Sanco43 => xSanco43
  | X_TamScalable_SP => xTamScalable_SP
  | X_TamScalable_SP_2X => xTamScalable_SP_2X
  | X_TamScalable_SP_Half => xTamScalable_SP_Half
  | X_Scalable_MP => xScalable_MP
  end.

(** HPWHpresets.cc:2063-2069, 2134-2140: the map of the four Sanco presets, by outside temperature in F *)
Definition sancoMap : list (lnum * list lnum * list lnum) :=
  [(Lit 17 1, [Lit 1650 1; Lit 55 10; Lit 0 1], [Lit 32 10; Lit (-15) 1000; Lit 0 1]);
   (Lit 35 1, [Lit 1100 1; Lit 40 10; Lit 0 1], [Lit 37 10; Lit (-15) 1000; Lit 0 1]);
   (Lit 50 1, [Lit 880 1; Lit 31 10; Lit 0 1], [Lit 525 100; Lit (-25) 1000; Lit 0 1]);
   (Lit 67 1, [Lit 740 1; Lit 40 10; Lit 0 1], [Lit 62 10; Lit (-3) 100; Lit 0 1]);
   (Lit 95 1, [Lit 790 1; Lit 2 1; Lit 0 1], [Lit 715 100; Lit (-4) 100; Lit 0 1])].
