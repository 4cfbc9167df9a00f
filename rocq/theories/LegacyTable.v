(** The descriptions of the preset units of Legacy.v, one for each branch and preset of /repo/src/HPWHpresets.cc:357-4349
    (the lines of the branch are given).  Constants are written as in the code. *)

From Coq Require Import ZArith String List Bool.
From Verif Require Import Types Legacy.
Import ListNotations.
Local Open Scope string_scope.
Local Open Scope Z_scope.

(** hpwh_presets::MODELS, the presets modelled *)
Inductive lmodel : Set :=
| M_restankNoUA
| M_restankHugeUA
| M_restankRealistic
| M_StorageTank
| M_basicIntegrated
| M_AOSmithPHPT60
| M_AOSmithPHPT80
| M_GE2012_50
| M_AOSmithHPTU50
| M_RheemHBDR2250
| M_RheemHBDR4550
| M_AOSmithHPTU66
| M_RheemHBDR2265
| M_RheemHBDR4565
| M_AOSmithHPTU80
| M_RheemHBDR2280
| M_RheemHBDR4580
| M_AOSmithHPTU80_DR
| M_AOSmithCAHP120
| M_AOSmithHPTS40
| M_AOSmithHPTS50
| M_AOSmithHPTS66
| M_AOSmithHPTS80
| M_GE2014STDMode_50
| M_GE2014STDMode_80
| M_GE2014_50
| M_GE2014_80
| M_GE2014_80DR
| M_BWC2020_65
| M_Rheem2020Prem40
| M_Rheem2020Prem50
| M_Rheem2020Prem65
| M_Rheem2020Prem80
| M_Rheem2020Build40
| M_Rheem2020Build50
| M_Rheem2020Build65
| M_Rheem2020Build80
| M_RheemPlugInShared40
| M_RheemPlugInShared50
| M_RheemPlugInShared65
| M_RheemPlugInShared80
| M_RheemPlugInDedicated40
| M_RheemPlugInDedicated50
| M_RheemHB50
| M_Stiebel220E
| M_Generic1
| M_Generic2
| M_Generic3
| M_UEF2generic
| M_AWHSTier3Generic40
| M_AWHSTier3Generic50
| M_AWHSTier3Generic65
| M_AWHSTier3Generic80
| M_AquaThermAire
| M_GenericUEF217
| M_AWHSTier4Generic40
| M_AWHSTier4Generic50
| M_AWHSTier4Generic65
| M_AWHSTier4Generic80
| M_BradfordWhiteAeroThermRE2H50
| M_BradfordWhiteAeroThermRE2H65
| M_BradfordWhiteAeroThermRE2H80
| M_LG_APHWC50
| M_LG_APHWC80.

(** HPWHpresets.cc:357-384 *)
Definition lp_restankNoUA : lpreset :=
  mklpreset false 12 (FtoC (Lit 127 1)) None false (Gal (Lit 50 1)) (Lit 0 1) false true None
    [
     mklsrc (LElement 8 (Lit 4500 1)) true None
       [lTopThird (DFtoDC (Lit 20 1))] [] None None (Some 1%nat);
     mklsrc (LElement 0 (Lit 4500 1)) false None
       [lBottomThird (DFtoDC (Lit 40 1)); lTopNode (DFtoDC (Lit 10 1))] [] None None None].
(** HPWHpresets.cc:387-415 *)
Definition lp_restankHugeUA : lpreset :=
  mklpreset false 12 (Lit 50 1) None false (Lit 120 1) (Lit 500 1) false false None
    [
     mklsrc (LElement 9 (Lit 4500 1)) true None
       [lTopThird (Lit 20 1)] [] None None (Some 1%nat);
     mklsrc (LElement 0 (Lit 4500 1)) false None
       [lBottomThird (Lit 20 1); lTopNode (Lit 15 1)] [] None None None].
(** HPWHpresets.cc:418-446 *)
Definition lp_restankRealistic : lpreset :=
  mklpreset false 12 (FtoC (Lit 127 1)) None false (Gal (Lit 50 1)) (Lit 10 1) false false None
    [
     mklsrc (LElement 9 (Lit 4500 1)) true None
       [lTopThird (Lit 20 1)] [] None None (Some 1%nat);
     mklsrc (LElement 0 (Lit 4500 1)) false None
       [lBottomThird (Lit 20 1); lTopNode (Lit 15 1)] [] None None None].
(** HPWHpresets.cc:448-462 *)
Definition lp_StorageTank : lpreset :=
  mklpreset true 12 (Lit 800 1) (Some (FtoC (Lit 127 1))) false (Gal (Lit 80 1)) (Lit 10 1) false false None
    [].
(** HPWHpresets.cc:465-524 *)
Definition lp_basicIntegrated : lpreset :=
  mklpreset false 12 (Lit 50 1) None false (Lit 120 1) (Lit 10 1) false false None
    [
     mklsrc (LElement 9 (Lit 4500 1)) true None
       [lTopThird (Lit 20 1)] [] None None (Some 1%nat);
     mklsrc (LCondenser (mklcond
         [(Lit 47 1, [LMul (Lit 29 100) (Lit 1000 1); LMul (Lit 159 100000) (Lit 1000 1); LMul (Lit 107 100000000) (Lit 1000 1)], [Lit 449 100; Lit (-187) 10000; Lit (-133) 10000000]);
          (Lit 67 1, [LMul (Lit 375 1000) (Lit 1000 1); LMul (Lit 121 100000) (Lit 1000 1); LMul (Lit 216 100000000) (Lit 1000 1)], [Lit 56 10; Lit (-252) 10000; Lit 254 100000000])]
         (Some (Lit 0 1)) (Some (FtoC (Lit 120 1))) (Some (DFtoDC (Lit 4 1))) (Some Wrapped) (Some (FtoC (Lit 160 1))) None)) false (Some [Lit 1 1; Lit 0 1])
       [lBottomThird (Lit 20 1); lTopNode (Lit 15 1)] [] (Some 2%nat) None (Some 2%nat);
     mklsrc (LElement 0 (Lit 4500 1)) false None
       [lBottomThird (Lit 20 1); lTopNode (Lit 15 1)] [] (Some 1%nat) None None].
(** HPWHpresets.cc:527-590 *)
Definition lp_AOSmithPHPT60 : lpreset :=
  mklpreset false 12 (FtoC (Lit 127 1)) None true (Lit 2158 10) (Lit 731 100) false true None
    [
     mklsrc (LElement 8 (Lit 4250 1)) true None
       [lTopThird (DFtoDC (Lit 25 1))] [] None None (Some 1%nat);
     mklsrc (LCondenser (mklcond
         [(Lit 47 1, [LMul (Lit 467 1000) (Lit 1000 1); LMul (Lit 281 100000) (Lit 1000 1); LMul (Lit 72 10000000) (Lit 1000 1)], [Lit 486 100; Lit (-222) 10000; Lit (-1) 100000]);
          (Lit 67 1, [LMul (Lit 541 1000) (Lit 1000 1); LMul (Lit 147 100000) (Lit 1000 1); LMul (Lit 176 10000000) (Lit 1000 1)], [Lit 658 100; Lit (-392) 10000; Lit 407 10000000])]
         (Some (FtoC (Lit 45 1))) (Some (FtoC (Lit 120 1))) (Some (DFtoDC (Lit 4 1))) (Some Wrapped) (Some (FtoC (Lit 160 1))) None)) false (Some [LDiv (Lit 1 1) (Lit 5 1); LDiv (Lit 1 1) (Lit 5 1); LDiv (Lit 1 1) (Lit 5 1); LDiv (Lit 1 1) (Lit 5 1); LDiv (Lit 1 1) (Lit 5 1); Lit 0 1; Lit 0 1; Lit 0 1; Lit 0 1; Lit 0 1; Lit 0 1; Lit 0 1])
       [lBottomThird (DFtoDC (Lit 436 10)); lTopNode (DFtoDC (Lit 238 10))] [] (Some 2%nat) None (Some 2%nat);
     mklsrc (LElement 0 (Lit 2000 1)) false None
       [lBottomThird (DFtoDC (Lit 436 10))] [] (Some 1%nat) None None].
(** HPWHpresets.cc:591-655 *)
Definition lp_AOSmithPHPT80 : lpreset :=
  mklpreset false 12 (FtoC (Lit 127 1)) None true (Lit 2839 10) (Lit 88 10) false true None
    [
     mklsrc (LElement 8 (Lit 4250 1)) true None
       [lTopThird (DFtoDC (Lit 25 1))] [] None None (Some 1%nat);
     mklsrc (LCondenser (mklcond
         [(Lit 47 1, [LMul (Lit 467 1000) (Lit 1000 1); LMul (Lit 281 100000) (Lit 1000 1); LMul (Lit 72 10000000) (Lit 1000 1)], [Lit 486 100; Lit (-222) 10000; Lit (-1) 100000]);
          (Lit 67 1, [LMul (Lit 541 1000) (Lit 1000 1); LMul (Lit 147 100000) (Lit 1000 1); LMul (Lit 176 10000000) (Lit 1000 1)], [Lit 658 100; Lit (-392) 10000; Lit 407 10000000])]
         (Some (FtoC (Lit 45 1))) (Some (FtoC (Lit 120 1))) (Some (DFtoDC (Lit 4 1))) (Some Wrapped) (Some (FtoC (Lit 160 1))) None)) false (Some [LDiv (Lit 1 1) (Lit 5 1); LDiv (Lit 1 1) (Lit 5 1); LDiv (Lit 1 1) (Lit 5 1); LDiv (Lit 1 1) (Lit 5 1); LDiv (Lit 1 1) (Lit 5 1); Lit 0 1; Lit 0 1; Lit 0 1; Lit 0 1; Lit 0 1; Lit 0 1; Lit 0 1])
       [lBottomThird (DFtoDC (Lit 436 10)); lTopNode (DFtoDC (Lit 238 10))] [] (Some 2%nat) None (Some 2%nat);
     mklsrc (LElement 0 (Lit 2000 1)) false None
       [lBottomThird (DFtoDC (Lit 436 10))] [] (Some 1%nat) None None].
(** HPWHpresets.cc:656-723 *)
Definition lp_GE2012_50 : lpreset :=
  mklpreset false 12 (FtoC (Lit 127 1)) None true (Lit 172 1) (Lit 68 10) false true None
    [
     mklsrc (LElement 8 (Lit 4200 1)) true None
       [lTopThird (DFtoDC (Lit 28 1))] [] None None (Some 1%nat);
     mklsrc (LCondenser (mklcond
         [(Lit 47 1, [LMul (Lit 3 10) (Lit 1000 1); LMul (Lit 159 100000) (Lit 1000 1); LMul (Lit 107 100000000) (Lit 1000 1)], [Lit 47 10; Lit (-21) 1000; Lit 0 1]);
          (Lit 67 1, [LMul (Lit 378 1000) (Lit 1000 1); LMul (Lit 121 100000) (Lit 1000 1); LMul (Lit 216 100000000) (Lit 1000 1)], [Lit 48 10; Lit (-167) 10000; Lit 0 1])]
         (Some (FtoC (Lit 45 1))) (Some (FtoC (Lit 120 1))) (Some (DFtoDC (Lit 4 1))) (Some Wrapped) (Some (FtoC (Lit 160 1))) None)) false (Some [LDiv (Lit 1 1) (Lit 5 1); LDiv (Lit 1 1) (Lit 5 1); LDiv (Lit 1 1) (Lit 5 1); LDiv (Lit 1 1) (Lit 5 1); LDiv (Lit 1 1) (Lit 5 1); Lit 0 1; Lit 0 1; Lit 0 1; Lit 0 1; Lit 0 1; Lit 0 1; Lit 0 1])
       [lBottomThird (DFtoDC (Lit 40 1)); lTopNode (DFtoDC (Lit 52 10))] [lLargeDraw (FtoC (Lit 65 1))] (Some 2%nat) None (Some 2%nat);
     mklsrc (LElement 0 (Lit 4200 1)) false None
       [lBottomThird (DFtoDC (Lit 40 1))] [] (Some 1%nat) None None].
(** HPWHpresets.cc:2173-2271 *)
Definition lp_AOSmithHPTU50 : lpreset :=
  mklpreset false 24 (FtoC (Lit 127 1)) None true (Lit 171 1) (Lit 6 1) false true None
    [
     mklsrc (LElement 8 (Lit 4500 1)) true None
       [LNodes "top sixth absolute" [11; 12] (FtoC (Lit 105 1))] [] None (Some 2%nat) (Some 1%nat);
     mklsrc (LElement 0 (Lit 4500 1)) false None
       [] [lBottomTwelfthMax (FtoC (Lit 100 1))] (Some 2%nat) None (Some 2%nat);
     mklsrc (LCondenser (mklcond
         [(Lit 50 1, [Lit 170 1; Lit 202 100; Lit 0 1], [Lit 593 100; Lit (-27) 1000; Lit 0 1]);
          (Lit 70 1, [Lit 1445 10; Lit 242 100; Lit 0 1], [Lit 767 100; Lit (-37) 1000; Lit 0 1]);
          (Lit 95 1, [Lit 941 10; Lit 315 100; Lit 0 1], [Lit 111 10; Lit (-56) 1000; Lit 0 1])]
         (Some (FtoC (Lit 42 1))) (Some (FtoC (Lit 120 1))) (Some (DFtoDC (Lit 2 1))) (Some Wrapped) (Some (FtoC (Lit 160 1))) None)) false (Some [LDiv (Lit 1 1) (Lit 5 1); LDiv (Lit 1 1) (Lit 5 1); LDiv (Lit 1 1) (Lit 5 1); LDiv (Lit 1 1) (Lit 5 1); LDiv (Lit 1 1) (Lit 5 1); Lit 0 1; Lit 0 1; Lit 0 1; Lit 0 1; Lit 0 1; Lit 0 1; Lit 0 1])
       [lBottomThird (DFtoDC (Lit 35 1)); lTopNode (DFtoDC (Lit 9 1))] [] (Some 1%nat) None None].
(** HPWHpresets.cc:2173-2271 *)
Definition lp_RheemHBDR2250 : lpreset :=
  mklpreset false 24 (FtoC (Lit 127 1)) None true (Lit 171 1) (Lit 6 1) false true None
    [
     mklsrc (LElement 8 (Lit 2250 1)) true None
       [LNodes "top sixth absolute" [11; 12] (FtoC (Lit 105 1))] [] None (Some 2%nat) (Some 1%nat);
     mklsrc (LElement 0 (Lit 2250 1)) false None
       [] [lBottomTwelfthMax (FtoC (Lit 100 1))] (Some 2%nat) None (Some 2%nat);
     mklsrc (LCondenser (mklcond
         [(Lit 50 1, [Lit 170 1; Lit 202 100; Lit 0 1], [Lit 593 100; Lit (-27) 1000; Lit 0 1]);
          (Lit 70 1, [Lit 1445 10; Lit 242 100; Lit 0 1], [Lit 767 100; Lit (-37) 1000; Lit 0 1]);
          (Lit 95 1, [Lit 941 10; Lit 315 100; Lit 0 1], [Lit 111 10; Lit (-56) 1000; Lit 0 1])]
         (Some (FtoC (Lit 42 1))) (Some (FtoC (Lit 120 1))) (Some (DFtoDC (Lit 2 1))) (Some Wrapped) (Some (FtoC (Lit 160 1))) None)) false (Some [LDiv (Lit 1 1) (Lit 5 1); LDiv (Lit 1 1) (Lit 5 1); LDiv (Lit 1 1) (Lit 5 1); LDiv (Lit 1 1) (Lit 5 1); LDiv (Lit 1 1) (Lit 5 1); Lit 0 1; Lit 0 1; Lit 0 1; Lit 0 1; Lit 0 1; Lit 0 1; Lit 0 1])
       [lBottomThird (DFtoDC (Lit 35 1)); lTopNode (DFtoDC (Lit 9 1))] [] (Some 1%nat) None None].
(** HPWHpresets.cc:2173-2271 *)
Definition lp_RheemHBDR4550 : lpreset :=
  mklpreset false 24 (FtoC (Lit 127 1)) None true (Lit 171 1) (Lit 6 1) false true None
    [
     mklsrc (LElement 8 (Lit 4500 1)) true None
       [LNodes "top sixth absolute" [11; 12] (FtoC (Lit 105 1))] [] None (Some 2%nat) (Some 1%nat);
     mklsrc (LElement 0 (Lit 4500 1)) false None
       [] [lBottomTwelfthMax (FtoC (Lit 100 1))] (Some 2%nat) None (Some 2%nat);
     mklsrc (LCondenser (mklcond
         [(Lit 50 1, [Lit 170 1; Lit 202 100; Lit 0 1], [Lit 593 100; Lit (-27) 1000; Lit 0 1]);
          (Lit 70 1, [Lit 1445 10; Lit 242 100; Lit 0 1], [Lit 767 100; Lit (-37) 1000; Lit 0 1]);
          (Lit 95 1, [Lit 941 10; Lit 315 100; Lit 0 1], [Lit 111 10; Lit (-56) 1000; Lit 0 1])]
         (Some (FtoC (Lit 42 1))) (Some (FtoC (Lit 120 1))) (Some (DFtoDC (Lit 2 1))) (Some Wrapped) (Some (FtoC (Lit 160 1))) None)) false (Some [LDiv (Lit 1 1) (Lit 5 1); LDiv (Lit 1 1) (Lit 5 1); LDiv (Lit 1 1) (Lit 5 1); LDiv (Lit 1 1) (Lit 5 1); LDiv (Lit 1 1) (Lit 5 1); Lit 0 1; Lit 0 1; Lit 0 1; Lit 0 1; Lit 0 1; Lit 0 1; Lit 0 1])
       [lBottomThird (DFtoDC (Lit 35 1)); lTopNode (DFtoDC (Lit 9 1))] [] (Some 1%nat) None None].
(** HPWHpresets.cc:2272-2376 *)
Definition lp_AOSmithHPTU66 : lpreset :=
  mklpreset false 24 (FtoC (Lit 127 1)) None true (Lit 2446 10) (Lit 8 1) false true None
    [
     mklsrc (LElement 8 (Lit 4500 1)) true None
       [LNodes "top sixth absolute" [11; 12] (FtoC (Lit 105 1))] [] None (Some 2%nat) (Some 1%nat);
     mklsrc (LElement 0 (Lit 4500 1)) false None
       [] [lBottomTwelfthMax (FtoC (Lit 100 1))] (Some 2%nat) None (Some 2%nat);
     mklsrc (LCondenser (mklcond
         [(Lit 50 1, [Lit 170 1; Lit 202 100; Lit 0 1], [Lit 593 100; Lit (-27) 1000; Lit 0 1]);
          (Lit 70 1, [Lit 1445 10; Lit 242 100; Lit 0 1], [Lit 767 100; Lit (-37) 1000; Lit 0 1]);
          (Lit 95 1, [Lit 941 10; Lit 315 100; Lit 0 1], [Lit 111 10; Lit (-56) 1000; Lit 0 1])]
         (Some (FtoC (Lit 42 1))) (Some (FtoC (Lit 120 1))) (Some (DFtoDC (Lit 2 1))) (Some Wrapped) (Some (FtoC (Lit 160 1))) None)) false (Some [Lit 1 1; Lit 0 1; Lit 0 1])
       [lBottomThird (DFtoDC (Lit 35 1)); lTopNode (DFtoDC (Lit 9 1))] [] (Some 1%nat) None None].
(** HPWHpresets.cc:2272-2376 *)
Definition lp_RheemHBDR2265 : lpreset :=
  mklpreset false 24 (FtoC (Lit 127 1)) None true (Lit 2214 10) (Lit 8 1) false true None
    [
     mklsrc (LElement 8 (Lit 2250 1)) true None
       [LNodes "top sixth absolute" [11; 12] (FtoC (Lit 105 1))] [] None (Some 2%nat) (Some 1%nat);
     mklsrc (LElement 0 (Lit 2250 1)) false None
       [] [lBottomTwelfthMax (FtoC (Lit 100 1))] (Some 2%nat) None (Some 2%nat);
     mklsrc (LCondenser (mklcond
         [(Lit 50 1, [Lit 170 1; Lit 202 100; Lit 0 1], [Lit 593 100; Lit (-27) 1000; Lit 0 1]);
          (Lit 70 1, [Lit 1445 10; Lit 242 100; Lit 0 1], [Lit 767 100; Lit (-37) 1000; Lit 0 1]);
          (Lit 95 1, [Lit 941 10; Lit 315 100; Lit 0 1], [Lit 111 10; Lit (-56) 1000; Lit 0 1])]
         (Some (FtoC (Lit 42 1))) (Some (FtoC (Lit 120 1))) (Some (DFtoDC (Lit 2 1))) (Some Wrapped) (Some (FtoC (Lit 160 1))) None)) false (Some [Lit 1 1; Lit 0 1; Lit 0 1])
       [lBottomThird (DFtoDC (Lit 35 1)); lTopNode (DFtoDC (Lit 9 1))] [] (Some 1%nat) None None].
(** HPWHpresets.cc:2272-2376 *)
Definition lp_RheemHBDR4565 : lpreset :=
  mklpreset false 24 (FtoC (Lit 127 1)) None true (Lit 2214 10) (Lit 8 1) false true None
    [
     mklsrc (LElement 8 (Lit 4500 1)) true None
       [LNodes "top sixth absolute" [11; 12] (FtoC (Lit 105 1))] [] None (Some 2%nat) (Some 1%nat);
     mklsrc (LElement 0 (Lit 4500 1)) false None
       [] [lBottomTwelfthMax (FtoC (Lit 100 1))] (Some 2%nat) None (Some 2%nat);
     mklsrc (LCondenser (mklcond
         [(Lit 50 1, [Lit 170 1; Lit 202 100; Lit 0 1], [Lit 593 100; Lit (-27) 1000; Lit 0 1]);
          (Lit 70 1, [Lit 1445 10; Lit 242 100; Lit 0 1], [Lit 767 100; Lit (-37) 1000; Lit 0 1]);
          (Lit 95 1, [Lit 941 10; Lit 315 100; Lit 0 1], [Lit 111 10; Lit (-56) 1000; Lit 0 1])]
         (Some (FtoC (Lit 42 1))) (Some (FtoC (Lit 120 1))) (Some (DFtoDC (Lit 2 1))) (Some Wrapped) (Some (FtoC (Lit 160 1))) None)) false (Some [Lit 1 1; Lit 0 1; Lit 0 1])
       [lBottomThird (DFtoDC (Lit 35 1)); lTopNode (DFtoDC (Lit 9 1))] [] (Some 1%nat) None None].
(** HPWHpresets.cc:2377-2476 *)
Definition lp_AOSmithHPTU80 : lpreset :=
  mklpreset false 24 (FtoC (Lit 127 1)) None true (Lit 2995 10) (Lit 9 1) false true None
    [
     mklsrc (LElement 8 (Lit 4500 1)) true None
       [LNodes "top sixth absolute" [11; 12] (FtoC (Lit 105 1))] [] None (Some 2%nat) (Some 1%nat);
     mklsrc (LElement 0 (Lit 4500 1)) false None
       [] [lBottomTwelfthMax (FtoC (Lit 100 1))] (Some 2%nat) None (Some 2%nat);
     mklsrc (LCondenser (mklcond
         [(Lit 50 1, [Lit 170 1; Lit 202 100; Lit 0 1], [Lit 593 100; Lit (-27) 1000; Lit 0 1]);
          (Lit 70 1, [Lit 1445 10; Lit 242 100; Lit 0 1], [Lit 767 100; Lit (-37) 1000; Lit 0 1]);
          (Lit 95 1, [Lit 941 10; Lit 315 100; Lit 0 1], [Lit 111 10; Lit (-56) 1000; Lit 0 1])]
         (Some (FtoC (Lit 42 1))) (Some (FtoC (Lit 120 1))) (Some (DFtoDC (Lit 1 1))) (Some Wrapped) (Some (FtoC (Lit 160 1))) None)) false (Some [Lit 1 1; Lit 0 1; Lit 0 1; Lit 0 1])
       [lBottomThird (DFtoDC (Lit 35 1)); lTopNode (DFtoDC (Lit 9 1))] [] (Some 1%nat) None None].
(** HPWHpresets.cc:2377-2476 *)
Definition lp_RheemHBDR2280 : lpreset :=
  mklpreset false 24 (FtoC (Lit 127 1)) None true (Lit 2995 10) (Lit 9 1) false true None
    [
     mklsrc (LElement 8 (Lit 2250 1)) true None
       [LNodes "top sixth absolute" [11; 12] (FtoC (Lit 105 1))] [] None (Some 2%nat) (Some 1%nat);
     mklsrc (LElement 0 (Lit 2250 1)) false None
       [] [lBottomTwelfthMax (FtoC (Lit 100 1))] (Some 2%nat) None (Some 2%nat);
     mklsrc (LCondenser (mklcond
         [(Lit 50 1, [Lit 170 1; Lit 202 100; Lit 0 1], [Lit 593 100; Lit (-27) 1000; Lit 0 1]);
          (Lit 70 1, [Lit 1445 10; Lit 242 100; Lit 0 1], [Lit 767 100; Lit (-37) 1000; Lit 0 1]);
          (Lit 95 1, [Lit 941 10; Lit 315 100; Lit 0 1], [Lit 111 10; Lit (-56) 1000; Lit 0 1])]
         (Some (FtoC (Lit 42 1))) (Some (FtoC (Lit 120 1))) (Some (DFtoDC (Lit 1 1))) (Some Wrapped) (Some (FtoC (Lit 160 1))) None)) false (Some [Lit 1 1; Lit 0 1; Lit 0 1; Lit 0 1])
       [lBottomThird (DFtoDC (Lit 35 1)); lTopNode (DFtoDC (Lit 9 1))] [] (Some 1%nat) None None].
(** HPWHpresets.cc:2377-2476 *)
Definition lp_RheemHBDR4580 : lpreset :=
  mklpreset false 24 (FtoC (Lit 127 1)) None true (Lit 2995 10) (Lit 9 1) false true None
    [
     mklsrc (LElement 8 (Lit 4500 1)) true None
       [LNodes "top sixth absolute" [11; 12] (FtoC (Lit 105 1))] [] None (Some 2%nat) (Some 1%nat);
     mklsrc (LElement 0 (Lit 4500 1)) false None
       [] [lBottomTwelfthMax (FtoC (Lit 100 1))] (Some 2%nat) None (Some 2%nat);
     mklsrc (LCondenser (mklcond
         [(Lit 50 1, [Lit 170 1; Lit 202 100; Lit 0 1], [Lit 593 100; Lit (-27) 1000; Lit 0 1]);
          (Lit 70 1, [Lit 1445 10; Lit 242 100; Lit 0 1], [Lit 767 100; Lit (-37) 1000; Lit 0 1]);
          (Lit 95 1, [Lit 941 10; Lit 315 100; Lit 0 1], [Lit 111 10; Lit (-56) 1000; Lit 0 1])]
         (Some (FtoC (Lit 42 1))) (Some (FtoC (Lit 120 1))) (Some (DFtoDC (Lit 1 1))) (Some Wrapped) (Some (FtoC (Lit 160 1))) None)) false (Some [Lit 1 1; Lit 0 1; Lit 0 1; Lit 0 1])
       [lBottomThird (DFtoDC (Lit 35 1)); lTopNode (DFtoDC (Lit 9 1))] [] (Some 1%nat) None None].
(** HPWHpresets.cc:2477-2544 *)
Definition lp_AOSmithHPTU80_DR : lpreset :=
  mklpreset false 12 (FtoC (Lit 127 1)) None true (Lit 2839 10) (Lit 9 1) false true None
    [
     mklsrc (LElement 8 (Lit 4500 1)) true None
       [lTopThirdAbs (FtoC (Lit 87 1))] [] None None (Some 1%nat);
     mklsrc (LElement 0 (Lit 4500 1)) false None
       [] [lBottomTwelfthMax (FtoC (Lit 80108 1000))] (Some 2%nat) None (Some 2%nat);
     mklsrc (LCondenser (mklcond
         [(Lit 47 1, [Lit 1426 10; Lit 2152 1000; Lit 0 1], [Lit 6989258 1000000; Lit (-3832) 100000; Lit 0 1]);
          (Lit 67 1, [Lit 12014 100; Lit 2513 1000; Lit 0 1], [Lit 8188 1000; Lit (-432) 10000; Lit 0 1])]
         (Some (FtoC (Lit 42 1))) (Some (FtoC (Lit 120 1))) (Some (DFtoDC (Lit 2 1))) (Some Wrapped) (Some (FtoC (Lit 160 1))) None)) false (Some [Lit 1 1; Lit 0 1; Lit 0 1])
       [lBottomThird (DFtoDC (Lit 341636 10000)); lTopNode (DFtoDC (Lit 71528 10000))] [] (Some 1%nat) None None].
(** HPWHpresets.cc:2545-2619 *)
Definition lp_AOSmithCAHP120 : lpreset :=
  mklpreset false 24 (FtoC (Lit 150 1)) None true (Gal (Lit 11176 100)) (UAfc (Lit 394 100)) false false None
    [
     mklsrc (LElement 7 (Lit 6000 1)) true None
       [lTopThird (Lit 12 1)] [lFifthSixthMax (FtoC (Lit 117 1))] None (Some 1%nat) (Some 1%nat);
     mklsrc (LElement 0 (Lit 6000 1)) false (Some [Lit 2 10; Lit 8 10; Lit 0 1; Lit 0 1; Lit 0 1; Lit 0 1; Lit 0 1; Lit 0 1; Lit 0 1; Lit 0 1; Lit 0 1; Lit 0 1])
       [lTopThird (Lit 12 1)] [lSecondSixthMax (FtoC (Lit 109 1))] (Some 2%nat) (Some 2%nat) (Some 2%nat);
     mklsrc (LCondenser (mklcond
         [(Lit 50 1, [Lit 201049966 100000; Lit (-420966) 100000; Lit 85395 1000000], [Lit 591 100; Lit (-26299) 1000000; Lit 0 1]);
          (Lit 675 10, [Lit 2171012 1000; Lit (-6936571) 1000000; Lit 1094962 10000000], [Lit 726272 100000; Lit (-34135) 1000000; Lit 0 1]);
          (Lit 95 1, [Lit 22760625 10000; Lit (-7106608) 1000000; Lit 119911 1000000], [Lit 8821262 1000000; Lit (-42059) 1000000; Lit 0 1])]
         (Some (FtoC (Lit 47 1))) (Some (FtoC (Lit 110 1))) (Some (DFtoDC (Lit 2 1))) (Some Wrapped) (Some (FtoC (Lit 160 1))) None)) false (Some [Lit 3 10; Lit 3 10; Lit 2 10; Lit 1 10; Lit 1 10; Lit 0 1; Lit 0 1; Lit 0 1; Lit 0 1; Lit 0 1; Lit 0 1; Lit 0 1])
       [lSecondSixth (DFtoDC (Lit 525 100)); lTopNode (DFtoDC (Lit 5 1))] [] (Some 1%nat) None None].
(** HPWHpresets.cc:2620-2720 *)
Definition lp_AOSmithHPTS40 : lpreset :=
  mklpreset false 12 (FtoC (Lit 127 1)) None true (Gal (Lit 361 10)) (Lit 95 10) false true None
    [
     mklsrc (LElement 8 (Lit 4500 1)) true None
       [lTopThird (DFtoDC (Lit 1187 100))] [] None (Some 2%nat) (Some 2%nat);
     mklsrc (LElement 0 (Lit 4500 1)) false None
       [] [] (Some 2%nat) None (Some 2%nat);
     mklsrc (LCondenser (mklcond
         [(Lit 50 1, [Lit 6682 100; Lit 249 100; Lit 0 1], [Lit 864 100; Lit (-436) 10000; Lit 0 1]);
          (Lit 675 10, [Lit 851 10; Lit 238 100; Lit 0 1], [Lit 1082 100; Lit (-551) 10000; Lit 0 1]);
          (Lit 95 1, [Lit 89 1; Lit 262 100; Lit 0 1], [Lit 1252 100; Lit (-534) 10000; Lit 0 1])]
         (Some (FtoC (Lit 37 1))) (Some (FtoC (Lit 120 1))) (Some (DFtoDC (Lit 1 1))) (Some Wrapped) (Some (FtoC (Lit 160 1))) None)) false (Some [Lit 0 1; Lit 2 10; Lit 2 10; Lit 2 10; Lit 2 10; Lit 2 10; Lit 0 1; Lit 0 1; Lit 0 1; Lit 0 1; Lit 0 1; Lit 0 1])
       [lBottomThird (DFtoDC (Lit 302 10)); lTopNode (DFtoDC (Lit 9 1))] [] (Some 1%nat) None None].
(** HPWHpresets.cc:2620-2720 *)
Definition lp_AOSmithHPTS50 : lpreset :=
  mklpreset false 12 (FtoC (Lit 127 1)) None true (Gal (Lit 456 10)) (Lit 6403 1000) false true None
    [
     mklsrc (LElement 8 (Lit 4500 1)) true None
       [lTopThird (DFtoDC (Lit 1187 100))] [] None (Some 2%nat) (Some 2%nat);
     mklsrc (LElement 0 (Lit 4500 1)) false None
       [] [] (Some 2%nat) None (Some 2%nat);
     mklsrc (LCondenser (mklcond
         [(Lit 50 1, [Lit 6682 100; Lit 249 100; Lit 0 1], [Lit 864 100; Lit (-436) 10000; Lit 0 1]);
          (Lit 675 10, [Lit 851 10; Lit 238 100; Lit 0 1], [Lit 1082 100; Lit (-551) 10000; Lit 0 1]);
          (Lit 95 1, [Lit 89 1; Lit 262 100; Lit 0 1], [Lit 1252 100; Lit (-534) 10000; Lit 0 1])]
         (Some (FtoC (Lit 37 1))) (Some (FtoC (Lit 120 1))) (Some (DFtoDC (Lit 1 1))) (Some Wrapped) (Some (FtoC (Lit 160 1))) None)) false (Some [Lit 0 1; Lit 2 10; Lit 2 10; Lit 2 10; Lit 2 10; Lit 2 10; Lit 0 1; Lit 0 1; Lit 0 1; Lit 0 1; Lit 0 1; Lit 0 1])
       [lBottomThird (DFtoDC (Lit 302 10)); lTopNode (DFtoDC (Lit 9 1))] [] (Some 1%nat) None None].
(** HPWHpresets.cc:2620-2720 *)
Definition lp_AOSmithHPTS66 : lpreset :=
  mklpreset false 12 (FtoC (Lit 127 1)) None true (Gal (Lit 6763 100)) (LDiv (LMul (UAfc (Lit 15 10)) (Lit 6403 1000)) (UAfc (Lit 116 100))) false true None
    [
     mklsrc (LElement 8 (Lit 4500 1)) true None
       [lTopThird (DFtoDC (Lit 1187 100))] [] None (Some 2%nat) (Some 2%nat);
     mklsrc (LElement 0 (Lit 4500 1)) false None
       [] [] (Some 2%nat) None (Some 2%nat);
     mklsrc (LCondenser (mklcond
         [(Lit 50 1, [Lit 6682 100; Lit 249 100; Lit 0 1], [Lit 864 100; Lit (-436) 10000; Lit 0 1]);
          (Lit 675 10, [Lit 851 10; Lit 238 100; Lit 0 1], [Lit 1082 100; Lit (-551) 10000; Lit 0 1]);
          (Lit 95 1, [Lit 89 1; Lit 262 100; Lit 0 1], [Lit 1252 100; Lit (-534) 10000; Lit 0 1])]
         (Some (FtoC (Lit 37 1))) (Some (FtoC (Lit 120 1))) (Some (DFtoDC (Lit 1 1))) (Some Wrapped) (Some (FtoC (Lit 160 1))) None)) false (Some [Lit 0 1; Lit 2 10; Lit 2 10; Lit 2 10; Lit 2 10; Lit 2 10; Lit 0 1; Lit 0 1; Lit 0 1; Lit 0 1; Lit 0 1; Lit 0 1])
       [lBottomThird (DFtoDC (Lit 302 10)); lTopNode (DFtoDC (Lit 9 1))] [] (Some 1%nat) None None].
(** HPWHpresets.cc:2620-2720 *)
Definition lp_AOSmithHPTS80 : lpreset :=
  mklpreset false 12 (FtoC (Lit 127 1)) None true (Gal (Lit 8194 100)) (LDiv (LMul (UAfc (Lit 173 100)) (Lit 6403 1000)) (UAfc (Lit 116 100))) false true None
    [
     mklsrc (LElement 8 (Lit 4500 1)) true None
       [lTopThird (DFtoDC (Lit 1187 100))] [] None (Some 2%nat) (Some 2%nat);
     mklsrc (LElement 0 (Lit 4500 1)) false None
       [] [] (Some 2%nat) None (Some 2%nat);
     mklsrc (LCondenser (mklcond
         [(Lit 50 1, [Lit 6682 100; Lit 249 100; Lit 0 1], [Lit 864 100; Lit (-436) 10000; Lit 0 1]);
          (Lit 675 10, [Lit 851 10; Lit 238 100; Lit 0 1], [Lit 1082 100; Lit (-551) 10000; Lit 0 1]);
          (Lit 95 1, [Lit 89 1; Lit 262 100; Lit 0 1], [Lit 1252 100; Lit (-534) 10000; Lit 0 1])]
         (Some (FtoC (Lit 37 1))) (Some (FtoC (Lit 120 1))) (Some (DFtoDC (Lit 1 1))) (Some Wrapped) (Some (FtoC (Lit 160 1))) None)) false (Some [Lit 0 1; Lit 2 10; Lit 2 10; Lit 2 10; Lit 2 10; Lit 2 10; Lit 0 1; Lit 0 1; Lit 0 1; Lit 0 1; Lit 0 1; Lit 0 1])
       [lBottomThird (DFtoDC (Lit 302 10)); lTopNode (DFtoDC (Lit 9 1))] [] (Some 1%nat) None None].
(** HPWHpresets.cc:2722-2779 *)
Definition lp_GE2014STDMode_50 : lpreset :=
  mklpreset false 12 (FtoC (Lit 127 1)) None true (Gal (Lit 45 1)) (Lit 65 10) false true None
    [
     mklsrc (LElement 6 (Lit 4500 1)) true None
       [lTopThird (DFtoDC (Lit 196605 10000))] [] None None (Some 1%nat);
     mklsrc (LElement 0 (Lit 4000 1)) false (Some [Lit 0 1; Lit 2 10; Lit 8 10; Lit 0 1; Lit 0 1; Lit 0 1; Lit 0 1; Lit 0 1; Lit 0 1; Lit 0 1; Lit 0 1; Lit 0 1])
       [] [lBottomTwelfthMax (FtoC (Lit 861111 10000))] (Some 2%nat) None (Some 2%nat);
     mklsrc (LCondenser (mklcond
         [(Lit 50 1, [Lit 187064124 1000000; Lit 1939747 1000000; Lit 0 1], [Lit 54977772 10000000; Lit (-243008) 10000000; Lit 0 1]);
          (Lit 70 1, [Lit 1480418 10000; Lit 2553291 1000000; Lit 0 1], [Lit 7207307 1000000; Lit (-335265) 10000000; Lit 0 1])]
         (Some (FtoC (Lit 37 1))) (Some (FtoC (Lit 120 1))) (Some (DFtoDC (Lit 2 1))) (Some Wrapped) (Some (FtoC (Lit 160 1))) None)) false (Some [Lit 1 1; Lit 0 1; Lit 0 1])
       [lBottomThird (DFtoDC (Lit 336883 10000)); lTopNode (DFtoDC (Lit 12392 1000))] [] (Some 1%nat) None None].
(** HPWHpresets.cc:2780-2833 *)
Definition lp_GE2014STDMode_80 : lpreset :=
  mklpreset false 12 (FtoC (Lit 127 1)) None true (Gal (Lit 754 10)) (Lit 10 1) false true None
    [
     mklsrc (LElement 6 (Lit 4500 1)) true None
       [lTopThird (DFtoDC (Lit 196605 10000))] [] None None (Some 1%nat);
     mklsrc (LElement 0 (Lit 4000 1)) false (Some [Lit 0 1; Lit 2 10; Lit 8 10; Lit 0 1; Lit 0 1; Lit 0 1; Lit 0 1; Lit 0 1; Lit 0 1; Lit 0 1; Lit 0 1; Lit 0 1])
       [] [lBottomTwelfthMax (FtoC (Lit 861111 10000))] (Some 2%nat) None (Some 2%nat);
     mklsrc (LCondenser (mklcond
         [(Lit 50 1, [Lit 187064124 1000000; Lit 1939747 1000000; Lit 0 1], [Lit 54977772 10000000; Lit (-243008) 10000000; Lit 0 1]);
          (Lit 70 1, [Lit 1480418 10000; Lit 2553291 1000000; Lit 0 1], [Lit 7207307 1000000; Lit (-335265) 10000000; Lit 0 1])]
         (Some (FtoC (Lit 37 1))) None None None (Some (FtoC (Lit 160 1))) None)) false (Some [Lit 1 1; Lit 0 1; Lit 0 1])
       [lBottomThird (DFtoDC (Lit 336883 10000)); lTopNode (DFtoDC (Lit 12392 1000))] [] (Some 1%nat) None None].
(** HPWHpresets.cc:2834-2894 *)
Definition lp_GE2014_50 : lpreset :=
  mklpreset false 12 (FtoC (Lit 127 1)) None true (Gal (Lit 45 1)) (Lit 65 10) false true None
    [
     mklsrc (LElement 6 (Lit 4500 1)) true None
       [lTopThird (DFtoDC (Lit 20 1))] [lTopNodeMax (FtoC (Lit 1166358 10000))] None None (Some 1%nat);
     mklsrc (LElement 0 (Lit 4000 1)) false (Some [Lit 0 1; Lit 2 10; Lit 8 10; Lit 0 1; Lit 0 1; Lit 0 1; Lit 0 1; Lit 0 1; Lit 0 1; Lit 0 1; Lit 0 1; Lit 0 1])
       [lThirdSixth (DFtoDC (Lit 60 1))] [lBottomTwelfthMax (FtoC (Lit 80 1))] (Some 2%nat) None (Some 2%nat);
     mklsrc (LCondenser (mklcond
         [(Lit 50 1, [Lit 187064124 1000000; Lit 1939747 1000000; Lit 0 1], [Lit 54977772 10000000; Lit (-243008) 10000000; Lit 0 1]);
          (Lit 70 1, [Lit 1480418 10000; Lit 2553291 1000000; Lit 0 1], [Lit 7207307 1000000; Lit (-335265) 10000000; Lit 0 1])]
         (Some (FtoC (Lit 37 1))) (Some (FtoC (Lit 120 1))) (Some (DFtoDC (Lit 2 1))) (Some Wrapped) (Some (FtoC (Lit 160 1))) None)) false (Some [Lit 1 1; Lit 0 1; Lit 0 1])
       [lBottomThird (DFtoDC (Lit 336883 10000)); lTopNode (DFtoDC (Lit 110648 10000))] [] (Some 1%nat) None None].
(** HPWHpresets.cc:2895-2956 *)
Definition lp_GE2014_80 : lpreset :=
  mklpreset false 12 (FtoC (Lit 127 1)) None true (Gal (Lit 754 10)) (Lit 10 1) false true None
    [
     mklsrc (LElement 6 (Lit 4500 1)) true None
       [lTopThird (DFtoDC (Lit 20 1))] [lTopNodeMax (FtoC (Lit 1166358 10000))] None None (Some 1%nat);
     mklsrc (LElement 0 (Lit 4000 1)) false (Some [Lit 0 1; Lit 2 10; Lit 8 10; Lit 0 1; Lit 0 1; Lit 0 1; Lit 0 1; Lit 0 1; Lit 0 1; Lit 0 1; Lit 0 1; Lit 0 1])
       [lThirdSixth (DFtoDC (Lit 60 1))] [lBottomTwelfthMax (FtoC (Lit 80 1))] (Some 2%nat) None (Some 2%nat);
     mklsrc (LCondenser (mklcond
         [(Lit 50 1, [Lit 187064124 1000000; Lit 1939747 1000000; Lit 0 1], [Lit 54977772 10000000; Lit (-243008) 10000000; Lit 0 1]);
          (Lit 70 1, [Lit 1480418 10000; Lit 2553291 1000000; Lit 0 1], [Lit 7207307 1000000; Lit (-335265) 10000000; Lit 0 1])]
         (Some (FtoC (Lit 37 1))) (Some (FtoC (Lit 120 1))) (Some (DFtoDC (Lit 2 1))) (Some Wrapped) (Some (FtoC (Lit 160 1))) None)) false (Some [Lit 1 1; Lit 0 1; Lit 0 1])
       [lBottomThird (DFtoDC (Lit 336883 10000)); lTopNode (DFtoDC (Lit 110648 10000))] [] (Some 1%nat) None None].
(** HPWHpresets.cc:2957-3015 *)
Definition lp_GE2014_80DR : lpreset :=
  mklpreset false 12 (FtoC (Lit 127 1)) None true (Gal (Lit 754 10)) (Lit 10 1) false true None
    [
     mklsrc (LElement 6 (Lit 4500 1)) true None
       [lTopThirdAbs (FtoC (Lit 87 1))] [] None None (Some 1%nat);
     mklsrc (LElement 0 (Lit 4000 1)) false (Some [Lit 1 1; Lit 0 1; Lit 0 1; Lit 0 1; Lit 0 1; Lit 0 1; Lit 0 1; Lit 0 1; Lit 0 1; Lit 0 1; Lit 0 1; Lit 0 1])
       [lThirdSixth (DFtoDC (Lit 60 1))] [] (Some 2%nat) None (Some 2%nat);
     mklsrc (LCondenser (mklcond
         [(Lit 50 1, [Lit 187064124 1000000; Lit 1939747 1000000; Lit 0 1], [Lit 54977772 10000000; Lit (-243008) 10000000; Lit 0 1]);
          (Lit 70 1, [Lit 1480418 10000; Lit 2553291 1000000; Lit 0 1], [Lit 7207307 1000000; Lit (-335265) 10000000; Lit 0 1])]
         (Some (FtoC (Lit 37 1))) (Some (FtoC (Lit 120 1))) (Some (DFtoDC (Lit 2 1))) (Some Wrapped) (Some (FtoC (Lit 160 1))) None)) false (Some [Lit 1 1; Lit 0 1; Lit 0 1])
       [lBottomThird (DFtoDC (Lit 336883 10000)); lTopNode (DFtoDC (Lit 110648 10000))] [] (Some 1%nat) None None].
(** HPWHpresets.cc:3017-3072 *)
Definition lp_BWC2020_65 : lpreset :=
  mklpreset false 12 (FtoC (Lit 127 1)) None true (Gal (Lit 64 1)) (Lit 76 10) false true None
    [
     mklsrc (LElement 6 (Lit 4500 1)) true None
       [lTopThird (DFtoDC (Lit 20 1))] [lTopNodeMax (FtoC (Lit 1166358 10000))] None None None;
     mklsrc (LElement 0 (Lit 4000 1)) false (Some [Lit 0 1; Lit 2 10; Lit 8 10; Lit 0 1; Lit 0 1; Lit 0 1; Lit 0 1; Lit 0 1; Lit 0 1; Lit 0 1; Lit 0 1; Lit 0 1])
       [lThirdSixth (DFtoDC (Lit 60 1))] [lBottomTwelfthMax (FtoC (Lit 80 1))] (Some 2%nat) None None;
     mklsrc (LCondenser (mklcond
         [(Lit 50 1, [Lit 187064124 1000000; Lit 1939747 1000000; Lit 0 1], [Lit 54977772 10000000; Lit (-243008) 10000000; Lit 0 1]);
          (Lit 70 1, [Lit 1480418 10000; Lit 2553291 1000000; Lit 0 1], [Lit 7207307 1000000; Lit (-335265) 10000000; Lit 0 1])]
         (Some (FtoC (Lit 37 1))) (Some (FtoC (Lit 120 1))) (Some (DFtoDC (Lit 2 1))) (Some Wrapped) (Some (FtoC (Lit 160 1))) None)) false (Some [Lit 1 1; Lit 0 1; Lit 0 1])
       [lBottomThird (DFtoDC (Lit 336883 10000)); lTopNode (DFtoDC (Lit 110648 10000))] [] (Some 1%nat) None None].
(** HPWHpresets.cc:3074-3157 *)
Definition lp_Rheem2020Prem40 : lpreset :=
  mklpreset false 12 (FtoC (Lit 127 1)) None true (Gal (Lit 361 10)) (Lit 95 10) false true None
    [
     mklsrc (LElement 8 (Lit 4500 1)) true None
       [lTopSixth (DFtoDC (Lit 204167 10000))] [] None (Some 2%nat) (Some 2%nat);
     mklsrc (LElement 0 (Lit 4500 1)) false None
       [] [lBottomTwelfthMax (FtoC (Lit 100 1))] (Some 2%nat) None (Some 2%nat);
     mklsrc (LCondenser (mklcond
         [(Lit 50 1, [Lit 250 1; Lit (-10883) 10000; Lit 176 10000], [Lit 67 10; Lit (-87) 10000; Lit (-2) 10000]);
          (Lit 67 1, [Lit 275 1; Lit (-6631) 10000; Lit 1571 100000], [Lit 7 1; Lit (-168) 10000; Lit (-1) 10000])]
         (Some (FtoC (Lit 37 1))) (Some (FtoC (Lit 120 1))) (Some (DFtoDC (Lit 1 1))) (Some Wrapped) (Some (FtoC (Lit 160 1))) None)) false (Some [Lit 2 10; Lit 2 10; Lit 2 10; Lit 2 10; Lit 2 10; Lit 0 1; Lit 0 1; Lit 0 1; Lit 0 1; Lit 0 1; Lit 0 1; Lit 0 1])
       [lBottomThird (DFtoDC (Lit 32 1)); lTopNode (DFtoDC (Lit 9 1))] [] (Some 1%nat) None None].
(** HPWHpresets.cc:3074-3157 *)
Definition lp_Rheem2020Prem50 : lpreset :=
  mklpreset false 12 (FtoC (Lit 127 1)) None true (Gal (Lit 451 10)) (Lit 855 100) false true None
    [
     mklsrc (LElement 8 (Lit 4500 1)) true None
       [lTopSixth (DFtoDC (Lit 204167 10000))] [] None (Some 2%nat) (Some 2%nat);
     mklsrc (LElement 0 (Lit 4500 1)) false None
       [] [lBottomTwelfthMax (FtoC (Lit 100 1))] (Some 2%nat) None (Some 2%nat);
     mklsrc (LCondenser (mklcond
         [(Lit 50 1, [Lit 250 1; Lit (-10883) 10000; Lit 176 10000], [Lit 67 10; Lit (-87) 10000; Lit (-2) 10000]);
          (Lit 67 1, [Lit 275 1; Lit (-6631) 10000; Lit 1571 100000], [Lit 7 1; Lit (-168) 10000; Lit (-1) 10000])]
         (Some (FtoC (Lit 37 1))) (Some (FtoC (Lit 120 1))) (Some (DFtoDC (Lit 1 1))) (Some Wrapped) (Some (FtoC (Lit 160 1))) None)) false (Some [Lit 2 10; Lit 2 10; Lit 2 10; Lit 2 10; Lit 2 10; Lit 0 1; Lit 0 1; Lit 0 1; Lit 0 1; Lit 0 1; Lit 0 1; Lit 0 1])
       [lBottomThird (DFtoDC (Lit 32 1)); lTopNode (DFtoDC (Lit 9 1))] [] (Some 1%nat) None None].
(** HPWHpresets.cc:3074-3157 *)
Definition lp_Rheem2020Prem65 : lpreset :=
  mklpreset false 12 (FtoC (Lit 127 1)) None true (Gal (Lit 585 10)) (Lit 1064 100) false true None
    [
     mklsrc (LElement 8 (Lit 4500 1)) true None
       [lTopSixth (DFtoDC (Lit 204167 10000))] [] None (Some 2%nat) (Some 2%nat);
     mklsrc (LElement 0 (Lit 4500 1)) false None
       [] [lBottomTwelfthMax (FtoC (Lit 100 1))] (Some 2%nat) None (Some 2%nat);
     mklsrc (LCondenser (mklcond
         [(Lit 50 1, [Lit 250 1; Lit (-10883) 10000; Lit 176 10000], [Lit 67 10; Lit (-87) 10000; Lit (-2) 10000]);
          (Lit 67 1, [Lit 275 1; Lit (-6631) 10000; Lit 1571 100000], [Lit 7 1; Lit (-168) 10000; Lit (-1) 10000])]
         (Some (FtoC (Lit 37 1))) (Some (FtoC (Lit 120 1))) (Some (DFtoDC (Lit 1 1))) (Some Wrapped) (Some (FtoC (Lit 160 1))) None)) false (Some [Lit 2 10; Lit 2 10; Lit 2 10; Lit 2 10; Lit 2 10; Lit 0 1; Lit 0 1; Lit 0 1; Lit 0 1; Lit 0 1; Lit 0 1; Lit 0 1])
       [lBottomThird (DFtoDC (Lit 32 1)); lTopNode (DFtoDC (Lit 9 1))] [] (Some 1%nat) None None].
(** HPWHpresets.cc:3074-3157 *)
Definition lp_Rheem2020Prem80 : lpreset :=
  mklpreset false 12 (FtoC (Lit 127 1)) None true (Gal (Lit 72 1)) (Lit 1083 100) false true None
    [
     mklsrc (LElement 8 (Lit 4500 1)) true None
       [lTopSixth (DFtoDC (Lit 204167 10000))] [] None (Some 2%nat) (Some 2%nat);
     mklsrc (LElement 0 (Lit 4500 1)) false None
       [] [lBottomTwelfthMax (FtoC (Lit 100 1))] (Some 2%nat) None (Some 2%nat);
     mklsrc (LCondenser (mklcond
         [(Lit 50 1, [Lit 250 1; Lit (-10883) 10000; Lit 176 10000], [Lit 67 10; Lit (-87) 10000; Lit (-2) 10000]);
          (Lit 67 1, [Lit 275 1; Lit (-6631) 10000; Lit 1571 100000], [Lit 7 1; Lit (-168) 10000; Lit (-1) 10000])]
         (Some (FtoC (Lit 37 1))) (Some (FtoC (Lit 120 1))) (Some (DFtoDC (Lit 1 1))) (Some Wrapped) (Some (FtoC (Lit 160 1))) None)) false (Some [Lit 2 10; Lit 2 10; Lit 2 10; Lit 2 10; Lit 2 10; Lit 0 1; Lit 0 1; Lit 0 1; Lit 0 1; Lit 0 1; Lit 0 1; Lit 0 1])
       [lBottomThird (DFtoDC (Lit 32 1)); lTopNode (DFtoDC (Lit 9 1))] [] (Some 1%nat) None None].
(** HPWHpresets.cc:3160-3243 *)
Definition lp_Rheem2020Build40 : lpreset :=
  mklpreset false 12 (FtoC (Lit 127 1)) None true (Gal (Lit 361 10)) (Lit 95 10) false true None
    [
     mklsrc (LElement 8 (Lit 4500 1)) true None
       [lTopSixth (DFtoDC (Lit 204167 10000))] [] None (Some 2%nat) (Some 2%nat);
     mklsrc (LElement 0 (Lit 4500 1)) false None
       [] [lBottomTwelfthMax (FtoC (Lit 100 1))] (Some 2%nat) None (Some 2%nat);
     mklsrc (LCondenser (mklcond
         [(Lit 50 1, [Lit 220 1; Lit 8743 10000; Lit 454 100000], [Lit 796064 100000; Lit (-448) 10000; Lit 0 1]);
          (Lit 67 1, [Lit 275 1; Lit (-6631) 10000; Lit 1571 100000], [Lit 845936 100000; Lit (-4539) 100000; Lit 0 1])]
         (Some (FtoC (Lit 37 1))) (Some (FtoC (Lit 120 1))) (Some (DFtoDC (Lit 1 1))) (Some Wrapped) (Some (FtoC (Lit 160 1))) None)) false (Some [Lit 2 10; Lit 2 10; Lit 2 10; Lit 2 10; Lit 2 10; Lit 0 1; Lit 0 1; Lit 0 1; Lit 0 1; Lit 0 1; Lit 0 1; Lit 0 1])
       [lBottomThird (DFtoDC (Lit 30 1)); lTopNode (DFtoDC (Lit 9 1))] [] (Some 1%nat) None None].
(** HPWHpresets.cc:3160-3243 *)
Definition lp_Rheem2020Build50 : lpreset :=
  mklpreset false 12 (FtoC (Lit 127 1)) None true (Gal (Lit 451 10)) (Lit 855 100) false true None
    [
     mklsrc (LElement 8 (Lit 4500 1)) true None
       [lTopSixth (DFtoDC (Lit 204167 10000))] [] None (Some 2%nat) (Some 2%nat);
     mklsrc (LElement 0 (Lit 4500 1)) false None
       [] [lBottomTwelfthMax (FtoC (Lit 100 1))] (Some 2%nat) None (Some 2%nat);
     mklsrc (LCondenser (mklcond
         [(Lit 50 1, [Lit 220 1; Lit 8743 10000; Lit 454 100000], [Lit 796064 100000; Lit (-448) 10000; Lit 0 1]);
          (Lit 67 1, [Lit 275 1; Lit (-6631) 10000; Lit 1571 100000], [Lit 845936 100000; Lit (-4539) 100000; Lit 0 1])]
         (Some (FtoC (Lit 37 1))) (Some (FtoC (Lit 120 1))) (Some (DFtoDC (Lit 1 1))) (Some Wrapped) (Some (FtoC (Lit 160 1))) None)) false (Some [Lit 2 10; Lit 2 10; Lit 2 10; Lit 2 10; Lit 2 10; Lit 0 1; Lit 0 1; Lit 0 1; Lit 0 1; Lit 0 1; Lit 0 1; Lit 0 1])
       [lBottomThird (DFtoDC (Lit 30 1)); lTopNode (DFtoDC (Lit 9 1))] [] (Some 1%nat) None None].
(** HPWHpresets.cc:3160-3243 *)
Definition lp_Rheem2020Build65 : lpreset :=
  mklpreset false 12 (FtoC (Lit 127 1)) None true (Gal (Lit 585 10)) (Lit 1064 100) false true None
    [
     mklsrc (LElement 8 (Lit 4500 1)) true None
       [lTopSixth (DFtoDC (Lit 204167 10000))] [] None (Some 2%nat) (Some 2%nat);
     mklsrc (LElement 0 (Lit 4500 1)) false None
       [] [lBottomTwelfthMax (FtoC (Lit 100 1))] (Some 2%nat) None (Some 2%nat);
     mklsrc (LCondenser (mklcond
         [(Lit 50 1, [Lit 220 1; Lit 8743 10000; Lit 454 100000], [Lit 796064 100000; Lit (-448) 10000; Lit 0 1]);
          (Lit 67 1, [Lit 275 1; Lit (-6631) 10000; Lit 1571 100000], [Lit 845936 100000; Lit (-4539) 100000; Lit 0 1])]
         (Some (FtoC (Lit 37 1))) (Some (FtoC (Lit 120 1))) (Some (DFtoDC (Lit 1 1))) (Some Wrapped) (Some (FtoC (Lit 160 1))) None)) false (Some [Lit 2 10; Lit 2 10; Lit 2 10; Lit 2 10; Lit 2 10; Lit 0 1; Lit 0 1; Lit 0 1; Lit 0 1; Lit 0 1; Lit 0 1; Lit 0 1])
       [lBottomThird (DFtoDC (Lit 30 1)); lTopNode (DFtoDC (Lit 9 1))] [] (Some 1%nat) None None].
(** HPWHpresets.cc:3160-3243 *)
Definition lp_Rheem2020Build80 : lpreset :=
  mklpreset false 12 (FtoC (Lit 127 1)) None true (Gal (Lit 72 1)) (Lit 1083 100) false true None
    [
     mklsrc (LElement 8 (Lit 4500 1)) true None
       [lTopSixth (DFtoDC (Lit 204167 10000))] [] None (Some 2%nat) (Some 2%nat);
     mklsrc (LElement 0 (Lit 4500 1)) false None
       [] [lBottomTwelfthMax (FtoC (Lit 100 1))] (Some 2%nat) None (Some 2%nat);
     mklsrc (LCondenser (mklcond
         [(Lit 50 1, [Lit 220 1; Lit 8743 10000; Lit 454 100000], [Lit 796064 100000; Lit (-448) 10000; Lit 0 1]);
          (Lit 67 1, [Lit 275 1; Lit (-6631) 10000; Lit 1571 100000], [Lit 845936 100000; Lit (-4539) 100000; Lit 0 1])]
         (Some (FtoC (Lit 37 1))) (Some (FtoC (Lit 120 1))) (Some (DFtoDC (Lit 1 1))) (Some Wrapped) (Some (FtoC (Lit 160 1))) None)) false (Some [Lit 2 10; Lit 2 10; Lit 2 10; Lit 2 10; Lit 2 10; Lit 0 1; Lit 0 1; Lit 0 1; Lit 0 1; Lit 0 1; Lit 0 1; Lit 0 1])
       [lBottomThird (DFtoDC (Lit 30 1)); lTopNode (DFtoDC (Lit 9 1))] [] (Some 1%nat) None None].
(** HPWHpresets.cc:3244-3335 *)
Definition lp_RheemPlugInShared40 : lpreset :=
  mklpreset false 12 (FtoC (Lit 140 1)) None true (Gal (Lit 36 1)) (Lit 95 10) false true None
    [
     mklsrc (LCondenser (mklcond
         [(Lit 50 1, [Lit 250 1; Lit (-10883) 10000; Lit 176 10000], [Lit 67 10; Lit (-87) 10000; Lit (-2) 10000]);
          (Lit 67 1, [Lit 275 1; Lit (-6631) 10000; Lit 1571 100000], [Lit 7 1; Lit (-168) 10000; Lit (-1) 10000])]
         (Some (FtoC (Lit 37 1))) (Some (FtoC (Lit 120 1))) (Some (DFtoDC (Lit 1 1))) (Some Wrapped) (Some (FtoC (Lit 160 1))) None)) true (Some [Lit 2 10; Lit 2 10; Lit 2 10; Lit 2 10; Lit 2 10; Lit 0 1; Lit 0 1; Lit 0 1; Lit 0 1; Lit 0 1; Lit 0 1; Lit 0 1])
       [lBottomThird (DFtoDC (Lit 32 1)); lTopNode (DFtoDC (Lit 9 1))] [] None None None].
(** HPWHpresets.cc:3244-3335 *)
Definition lp_RheemPlugInShared50 : lpreset :=
  mklpreset false 12 (FtoC (Lit 140 1)) None true (Gal (Lit 45 1)) (Lit 855 100) false true None
    [
     mklsrc (LCondenser (mklcond
         [(Lit 50 1, [Lit 250 1; Lit (-10883) 10000; Lit 176 10000], [Lit 67 10; Lit (-87) 10000; Lit (-2) 10000]);
          (Lit 67 1, [Lit 275 1; Lit (-6631) 10000; Lit 1571 100000], [Lit 7 1; Lit (-168) 10000; Lit (-1) 10000])]
         (Some (FtoC (Lit 37 1))) (Some (FtoC (Lit 120 1))) (Some (DFtoDC (Lit 1 1))) (Some Wrapped) (Some (FtoC (Lit 160 1))) None)) true (Some [Lit 2 10; Lit 2 10; Lit 2 10; Lit 2 10; Lit 2 10; Lit 0 1; Lit 0 1; Lit 0 1; Lit 0 1; Lit 0 1; Lit 0 1; Lit 0 1])
       [lBottomThird (DFtoDC (Lit 32 1)); lTopNode (DFtoDC (Lit 9 1))] [] None None None].
(** HPWHpresets.cc:3244-3335 *)
Definition lp_RheemPlugInShared65 : lpreset :=
  mklpreset false 12 (FtoC (Lit 127 1)) None true (Gal (Lit 585 10)) (Lit 1064 100) false true None
    [
     mklsrc (LCondenser (mklcond
         [(Lit 50 1, [Lit 250 1; Lit (-10883) 10000; Lit 176 10000], [Lit 67 10; Lit (-87) 10000; Lit (-2) 10000]);
          (Lit 67 1, [Lit 275 1; Lit (-6631) 10000; Lit 1571 100000], [Lit 7 1; Lit (-168) 10000; Lit (-1) 10000])]
         (Some (FtoC (Lit 37 1))) (Some (FtoC (Lit 120 1))) (Some (DFtoDC (Lit 1 1))) (Some Wrapped) (Some (FtoC (Lit 160 1))) None)) true (Some [Lit 2 10; Lit 2 10; Lit 2 10; Lit 2 10; Lit 2 10; Lit 0 1; Lit 0 1; Lit 0 1; Lit 0 1; Lit 0 1; Lit 0 1; Lit 0 1])
       [lBottomThird (DFtoDC (Lit 32 1)); lTopNode (DFtoDC (Lit 9 1))] [] None None None].
(** HPWHpresets.cc:3244-3335 *)
Definition lp_RheemPlugInShared80 : lpreset :=
  mklpreset false 12 (FtoC (Lit 127 1)) None true (Gal (Lit 72 1)) (Lit 1083 100) false true None
    [
     mklsrc (LCondenser (mklcond
         [(Lit 50 1, [Lit 250 1; Lit (-10883) 10000; Lit 176 10000], [Lit 67 10; Lit (-87) 10000; Lit (-2) 10000]);
          (Lit 67 1, [Lit 275 1; Lit (-6631) 10000; Lit 1571 100000], [Lit 7 1; Lit (-168) 10000; Lit (-1) 10000])]
         (Some (FtoC (Lit 37 1))) (Some (FtoC (Lit 120 1))) (Some (DFtoDC (Lit 1 1))) (Some Wrapped) (Some (FtoC (Lit 160 1))) None)) true (Some [Lit 2 10; Lit 2 10; Lit 2 10; Lit 2 10; Lit 2 10; Lit 0 1; Lit 0 1; Lit 0 1; Lit 0 1; Lit 0 1; Lit 0 1; Lit 0 1])
       [lBottomThird (DFtoDC (Lit 32 1)); lTopNode (DFtoDC (Lit 9 1))] [] None None None].
(** HPWHpresets.cc:3336-3383 *)
Definition lp_RheemPlugInDedicated40 : lpreset :=
  mklpreset false 12 (FtoC (Lit 127 1)) None true (Gal (Lit 36 1)) (Lit 55 10) false true None
    [
     mklsrc (LCondenser (mklcond
         [(Lit 50 1, [Lit 52891 100; Lit 48988 10000; Lit 0 1], [Lit 43943 10000; Lit (-12443) 1000000; Lit 0 1]);
          (Lit 95 1, [Lit 49403 100; Lit 77266 10000; Lit 0 1], [Lit 548189 100000; Lit (-1604) 100000; Lit 0 1])]
         (Some (FtoC (Lit 37 1))) (Some (FtoC (Lit 120 1))) (Some (DFtoDC (Lit 1 1))) (Some Wrapped) (Some (FtoC (Lit 160 1))) None)) true (Some [Lit 5 10; Lit 5 10; Lit 0 1])
       [lBottomThird (DFtoDC (Lit 20 1)); lTopNode (DFtoDC (Lit 9 1))] [] None None None].
(** HPWHpresets.cc:3336-3383 *)
Definition lp_RheemPlugInDedicated50 : lpreset :=
  mklpreset false 12 (FtoC (Lit 127 1)) None true (Gal (Lit 45 1)) (Lit 633 100) false true None
    [
     mklsrc (LCondenser (mklcond
         [(Lit 50 1, [Lit 52891 100; Lit 48988 10000; Lit 0 1], [Lit 43943 10000; Lit (-12443) 1000000; Lit 0 1]);
          (Lit 95 1, [Lit 49403 100; Lit 77266 10000; Lit 0 1], [Lit 548189 100000; Lit (-1604) 100000; Lit 0 1])]
         (Some (FtoC (Lit 37 1))) (Some (FtoC (Lit 120 1))) (Some (DFtoDC (Lit 1 1))) (Some Wrapped) (Some (FtoC (Lit 160 1))) None)) true (Some [Lit 5 10; Lit 5 10; Lit 0 1])
       [lBottomThird (DFtoDC (Lit 20 1)); lTopNode (DFtoDC (Lit 9 1))] [] None None None].
(** HPWHpresets.cc:3384-3444 *)
Definition lp_RheemHB50 : lpreset :=
  mklpreset false 12 (FtoC (Lit 127 1)) None true (Gal (Lit 45 1)) (Lit 7 1) false true None
    [
     mklsrc (LElement 8 (Lit 4200 1)) true None
       [lTopSixth (DFtoDC (Lit 204167 10000))] [] None None (Some 1%nat);
     mklsrc (LElement 0 (Lit 2250 1)) false None
       [] [lBottomTwelfthMax (FtoC (Lit 767747 10000))] (Some 2%nat) None (Some 2%nat);
     mklsrc (LCondenser (mklcond
         [(Lit 47 1, [Lit 280 1; Lit 497342 100000; Lit 0 1], [Lit 5634009 1000000; Lit (-29485) 1000000; Lit 0 1]);
          (Lit 67 1, [Lit 280 1; Lit 535992 100000; Lit 0 1], [Lit 63 10; Lit (-3) 100; Lit 0 1])]
         (Some (FtoC (Lit 40 1))) (Some (FtoC (Lit 120 1))) (Some (DFtoDC (Lit 1 1))) (Some Wrapped) (Some (FtoC (Lit 160 1))) None)) false (Some [Lit 1 1; Lit 0 1; Lit 0 1])
       [lBottomThird (DFtoDC (Lit 38 1)); lTopNode (DFtoDC (Lit 132639 10000))] [] (Some 1%nat) None None].
(** HPWHpresets.cc:3445-3489 *)
Definition lp_Stiebel220E : lpreset :=
  mklpreset false 12 (FtoC (Lit 127 1)) None true (Gal (Lit 56 1)) (Lit 9 1) false false None
    [
     mklsrc (LCondenser (mklcond
         [(Lit 50 1, [Lit 29555337 100000; Lit 228518 100000; Lit 0 1], [Lit 5744118 1000000; Lit (-25946) 1000000; Lit 0 1]);
          (Lit 67 1, [Lit 2822126 10000; Lit 282001 100000; Lit 0 1], [Lit 8012112 1000000; Lit (-39394) 1000000; Lit 0 1])]
         (Some (FtoC (Lit 32 1))) (Some (FtoC (Lit 120 1))) (Some (Lit 0 1)) (Some Wrapped) (Some (FtoC (Lit 160 1))) (Some false))) false (Some [Lit 0 1; Lit 12 100; Lit 22 100; Lit 22 100; Lit 22 100; Lit 22 100; Lit 0 1; Lit 0 1; Lit 0 1; Lit 0 1; Lit 0 1; Lit 0 1])
       [lThirdSixth (DFtoDC (Lit 65509 10000))] [lBottomTwelfthMax (FtoC (Lit 100 1))] (Some 1%nat) None None;
     mklsrc (LElement 0 (Lit 1500 1)) false None
       [] [] None None None].
(** HPWHpresets.cc:3490-3544 *)
Definition lp_Generic1 : lpreset :=
  mklpreset false 12 (FtoC (Lit 127 1)) None true (Gal (Lit 50 1)) (Lit 9 1) false true None
    [
     mklsrc (LElement 8 (Lit 4500 1)) true None
       [lTopThird (DFtoDC (Lit 35 1))] [] None None (Some 1%nat);
     mklsrc (LElement 0 (Lit 4500 1)) false None
       [lBottomThird (DFtoDC (Lit 80 1))] [lBottomTwelfthMax (FtoC (Lit 110 1))] (Some 2%nat) None (Some 2%nat);
     mklsrc (LCondenser (mklcond
         [(Lit 50 1, [Lit 47258616 100000; Lit 20934 10000; Lit 0 1], [Lit 2942642 1000000; Lit (-125954) 10000000; Lit 0 1]);
          (Lit 67 1, [Lit 4395615 10000; Lit 262997 100000; Lit 0 1], [Lit 395076 100000; Lit (-1638033) 100000000; Lit 0 1])]
         (Some (FtoC (Lit 45 1))) (Some (FtoC (Lit 120 1))) (Some (DFtoDC (Lit 2 1))) (Some Wrapped) (Some (FtoC (Lit 160 1))) None)) false (Some [Lit 1 1; Lit 0 1; Lit 0 1])
       [lBottomThird (DFtoDC (Lit 40 1)); lTopNode (DFtoDC (Lit 10 1))] [lLargeDraw (FtoC (Lit 65 1))] (Some 1%nat) None None].
(** HPWHpresets.cc:3545-3601 *)
Definition lp_Generic2 : lpreset :=
  mklpreset false 12 (FtoC (Lit 127 1)) None true (Gal (Lit 50 1)) (Lit 75 10) false true None
    [
     mklsrc (LElement 6 (Lit 4500 1)) true None
       [lTopThird (DFtoDC (Lit 40 1))] [] None None (Some 1%nat);
     mklsrc (LElement 0 (Lit 4500 1)) false None
       [lBottomThird (DFtoDC (Lit 80 1))] [lBottomTwelfthMax (FtoC (Lit 100 1))] (Some 2%nat) None (Some 2%nat);
     mklsrc (LCondenser (mklcond
         [(Lit 50 1, [Lit 27258616 100000; Lit 20934 10000; Lit 0 1], [Lit 4042642 1000000; Lit (-205954) 10000000; Lit 0 1]);
          (Lit 67 1, [Lit 2395615 10000; Lit 262997 100000; Lit 0 1], [Lit 525076 100000; Lit (-2638033) 100000000; Lit 0 1])]
         (Some (FtoC (Lit 40 1))) (Some (FtoC (Lit 120 1))) (Some (DFtoDC (Lit 2 1))) (Some Wrapped) (Some (FtoC (Lit 160 1))) None)) false (Some [Lit 1 1; Lit 0 1; Lit 0 1])
       [lBottomThird (DFtoDC (Lit 40 1)); lTopNode (DFtoDC (Lit 10 1))] [lLargeDraw (FtoC (Lit 60 1))] (Some 1%nat) None None].
(** HPWHpresets.cc:3602-3660 *)
Definition lp_Generic3 : lpreset :=
  mklpreset false 12 (FtoC (Lit 127 1)) None true (Gal (Lit 50 1)) (Lit 5 1) false true None
    [
     mklsrc (LElement 6 (Lit 4500 1)) true None
       [lTopThird (DFtoDC (Lit 40 1))] [] None None (Some 1%nat);
     mklsrc (LElement 0 (Lit 4500 1)) false (Some [Lit 1 1; Lit 0 1; Lit 0 1; Lit 0 1; Lit 0 1; Lit 0 1; Lit 0 1; Lit 0 1; Lit 0 1; Lit 0 1; Lit 0 1; Lit 0 1])
       [lBottomThird (DFtoDC (Lit 60 1))] [] (Some 2%nat) None (Some 2%nat);
     mklsrc (LCondenser (mklcond
         [(Lit 50 1, [Lit 17258616 100000; Lit 20934 10000; Lit 0 1], [Lit 5242642 1000000; Lit (-285954) 10000000; Lit 0 1]);
          (Lit 67 1, [Lit 1395615 10000; Lit 262997 100000; Lit 0 1], [Lit 675076 100000; Lit (-3638033) 100000000; Lit 0 1])]
         (Some (FtoC (Lit 35 1))) (Some (FtoC (Lit 120 1))) (Some (DFtoDC (Lit 2 1))) (Some Wrapped) (Some (FtoC (Lit 160 1))) None)) false (Some [Lit 1 1; Lit 0 1; Lit 0 1])
       [lBottomThird (DFtoDC (Lit 40 1)); lTopNode (DFtoDC (Lit 10 1))] [lLargeDraw (FtoC (Lit 55 1))] (Some 1%nat) None None].
(** HPWHpresets.cc:3661-3716 *)
Definition lp_UEF2generic : lpreset :=
  mklpreset false 12 (FtoC (Lit 127 1)) None true (Gal (Lit 45 1)) (Lit 65 10) false true None
    [
     mklsrc (LElement 6 (Lit 4500 1)) true None
       [lTopThird (DFtoDC (Lit 186605 10000))] [] None None (Some 1%nat);
     mklsrc (LElement 0 (Lit 4000 1)) false (Some [Lit 0 1; Lit 2 10; Lit 8 10; Lit 0 1; Lit 0 1; Lit 0 1; Lit 0 1; Lit 0 1; Lit 0 1; Lit 0 1; Lit 0 1; Lit 0 1])
       [] [lBottomTwelfthMax (FtoC (Lit 861111 10000))] (Some 2%nat) None (Some 2%nat);
     mklsrc (LCondenser (mklcond
         [(Lit 50 1, [Lit 187064124 1000000; Lit 1939747 1000000; Lit 0 1], [Lit 429 100; Lit (-243008) 10000000; Lit 0 1]);
          (Lit 70 1, [Lit 1480418 10000; Lit 2553291 1000000; Lit 0 1], [Lit 561 100; Lit (-335265) 10000000; Lit 0 1])]
         (Some (FtoC (Lit 37 1))) (Some (FtoC (Lit 120 1))) (Some (DFtoDC (Lit 2 1))) (Some Wrapped) (Some (FtoC (Lit 160 1))) None)) false (Some [Lit 1 1; Lit 0 1; Lit 0 1])
       [lBottomThird (DFtoDC (Lit 336883 10000)); lTopNode (DFtoDC (Lit 12392 1000))] [] (Some 1%nat) None None].
(** HPWHpresets.cc:3717-3794 *)
Definition lp_AWHSTier3Generic40 : lpreset :=
  mklpreset false 12 (FtoC (Lit 127 1)) None true (Gal (Lit 361 10)) (Lit 5 1) false true None
    [
     mklsrc (LElement 6 (Lit 4500 1)) true None
       [lTopThird (DFtoDC (Lit 20 1))] [lTopNodeMax (FtoC (Lit 1166358 10000))] None None (Some 1%nat);
     mklsrc (LElement 0 (Lit 4000 1)) false (Some [Lit 0 1; Lit 2 10; Lit 8 10; Lit 0 1; Lit 0 1; Lit 0 1; Lit 0 1; Lit 0 1; Lit 0 1; Lit 0 1; Lit 0 1; Lit 0 1])
       [lThirdSixth (DFtoDC (Lit 60 1))] [lBottomTwelfthMax (FtoC (Lit 80 1))] (Some 2%nat) None (Some 2%nat);
     mklsrc (LCondenser (mklcond
         [(Lit 50 1, [Lit 187064124 1000000; Lit 1939747 1000000; Lit 0 1], [Lit 522288834 100000000; Lit (-243008) 10000000; Lit 0 1]);
          (Lit 675 10, [Lit 1529195905 10000000; Lit 2476598 1000000; Lit 0 1], [Lit 6643934986 1000000000; Lit (-32373288) 1000000000; Lit 0 1]);
          (Lit 95 1, [Lit 99263895 1000000; Lit 3320221 1000000; Lit 0 1], [Lit 887700829 100000000; Lit (-450586) 10000000; Lit 0 1])]
         (Some (FtoC (Lit 42 1))) (Some (FtoC (Lit 120 1))) (Some (DFtoDC (Lit 2 1))) (Some Wrapped) (Some (FtoC (Lit 160 1))) None)) false (Some [Lit 1 1; Lit 0 1; Lit 0 1])
       [lBottomThird (DFtoDC (Lit 336883 10000)); lTopNode (DFtoDC (Lit 110648 10000))] [] (Some 1%nat) None None].
(** HPWHpresets.cc:3717-3794 *)
Definition lp_AWHSTier3Generic50 : lpreset :=
  mklpreset false 12 (FtoC (Lit 127 1)) None true (Gal (Lit 45 1)) (Lit 65 10) false true None
    [
     mklsrc (LElement 6 (Lit 4500 1)) true None
       [lTopThird (DFtoDC (Lit 20 1))] [lTopNodeMax (FtoC (Lit 1166358 10000))] None None (Some 1%nat);
     mklsrc (LElement 0 (Lit 4000 1)) false (Some [Lit 0 1; Lit 2 10; Lit 8 10; Lit 0 1; Lit 0 1; Lit 0 1; Lit 0 1; Lit 0 1; Lit 0 1; Lit 0 1; Lit 0 1; Lit 0 1])
       [lThirdSixth (DFtoDC (Lit 60 1))] [lBottomTwelfthMax (FtoC (Lit 80 1))] (Some 2%nat) None (Some 2%nat);
     mklsrc (LCondenser (mklcond
         [(Lit 50 1, [Lit 187064124 1000000; Lit 1939747 1000000; Lit 0 1], [Lit 522288834 100000000; Lit (-243008) 10000000; Lit 0 1]);
          (Lit 675 10, [Lit 1529195905 10000000; Lit 2476598 1000000; Lit 0 1], [Lit 6643934986 1000000000; Lit (-32373288) 1000000000; Lit 0 1]);
          (Lit 95 1, [Lit 99263895 1000000; Lit 3320221 1000000; Lit 0 1], [Lit 887700829 100000000; Lit (-450586) 10000000; Lit 0 1])]
         (Some (FtoC (Lit 42 1))) (Some (FtoC (Lit 120 1))) (Some (DFtoDC (Lit 2 1))) (Some Wrapped) (Some (FtoC (Lit 160 1))) None)) false (Some [Lit 1 1; Lit 0 1; Lit 0 1])
       [lBottomThird (DFtoDC (Lit 336883 10000)); lTopNode (DFtoDC (Lit 110648 10000))] [] (Some 1%nat) None None].
(** HPWHpresets.cc:3717-3794 *)
Definition lp_AWHSTier3Generic65 : lpreset :=
  mklpreset false 12 (FtoC (Lit 127 1)) None true (Gal (Lit 64 1)) (Lit 76 10) false true None
    [
     mklsrc (LElement 6 (Lit 4500 1)) true None
       [lTopThird (DFtoDC (Lit 20 1))] [lTopNodeMax (FtoC (Lit 1166358 10000))] None None (Some 1%nat);
     mklsrc (LElement 0 (Lit 4000 1)) false (Some [Lit 0 1; Lit 2 10; Lit 8 10; Lit 0 1; Lit 0 1; Lit 0 1; Lit 0 1; Lit 0 1; Lit 0 1; Lit 0 1; Lit 0 1; Lit 0 1])
       [lThirdSixth (DFtoDC (Lit 60 1))] [lBottomTwelfthMax (FtoC (Lit 80 1))] (Some 2%nat) None (Some 2%nat);
     mklsrc (LCondenser (mklcond
         [(Lit 50 1, [Lit 187064124 1000000; Lit 1939747 1000000; Lit 0 1], [Lit 522288834 100000000; Lit (-243008) 10000000; Lit 0 1]);
          (Lit 675 10, [Lit 1529195905 10000000; Lit 2476598 1000000; Lit 0 1], [Lit 6643934986 1000000000; Lit (-32373288) 1000000000; Lit 0 1]);
          (Lit 95 1, [Lit 99263895 1000000; Lit 3320221 1000000; Lit 0 1], [Lit 887700829 100000000; Lit (-450586) 10000000; Lit 0 1])]
         (Some (FtoC (Lit 42 1))) (Some (FtoC (Lit 120 1))) (Some (DFtoDC (Lit 2 1))) (Some Wrapped) (Some (FtoC (Lit 160 1))) None)) false (Some [Lit 1 1; Lit 0 1; Lit 0 1])
       [lBottomThird (DFtoDC (Lit 336883 10000)); lTopNode (DFtoDC (Lit 110648 10000))] [] (Some 1%nat) None None].
(** HPWHpresets.cc:3717-3794 *)
Definition lp_AWHSTier3Generic80 : lpreset :=
  mklpreset false 12 (FtoC (Lit 127 1)) None true (Gal (Lit 754 10)) (Lit 10 1) false true None
    [
     mklsrc (LElement 6 (Lit 4500 1)) true None
       [lTopThird (DFtoDC (Lit 20 1))] [lTopNodeMax (FtoC (Lit 1166358 10000))] None None (Some 1%nat);
     mklsrc (LElement 0 (Lit 4000 1)) false (Some [Lit 0 1; Lit 2 10; Lit 8 10; Lit 0 1; Lit 0 1; Lit 0 1; Lit 0 1; Lit 0 1; Lit 0 1; Lit 0 1; Lit 0 1; Lit 0 1])
       [lThirdSixth (DFtoDC (Lit 60 1))] [lBottomTwelfthMax (FtoC (Lit 80 1))] (Some 2%nat) None (Some 2%nat);
     mklsrc (LCondenser (mklcond
         [(Lit 50 1, [Lit 187064124 1000000; Lit 1939747 1000000; Lit 0 1], [Lit 522288834 100000000; Lit (-243008) 10000000; Lit 0 1]);
          (Lit 675 10, [Lit 1529195905 10000000; Lit 2476598 1000000; Lit 0 1], [Lit 6643934986 1000000000; Lit (-32373288) 1000000000; Lit 0 1]);
          (Lit 95 1, [Lit 99263895 1000000; Lit 3320221 1000000; Lit 0 1], [Lit 887700829 100000000; Lit (-450586) 10000000; Lit 0 1])]
         (Some (FtoC (Lit 42 1))) (Some (FtoC (Lit 120 1))) (Some (DFtoDC (Lit 2 1))) (Some Wrapped) (Some (FtoC (Lit 160 1))) None)) false (Some [Lit 1 1; Lit 0 1; Lit 0 1])
       [lBottomThird (DFtoDC (Lit 336883 10000)); lTopNode (DFtoDC (Lit 110648 10000))] [] (Some 1%nat) None None].
(** HPWHpresets.cc:3979-4026 *)
Definition lp_AquaThermAire : lpreset :=
  mklpreset false 12 (Lit 50 1) (Some (Lit 4932 100)) true (Gal (Lit 544 10)) (Lit 1035 100) false false (Some (Lit 93 100))
    [
     mklsrc (LCondenser (mklcond
         [(Lit 5 1, [Lit (-1356) 1; Lit 398 10; Lit 0 1], [Lit 2003 1000; Lit (-3637) 1000000; Lit 0 1]);
          (Lit 34 1, [Lit (-1485) 1; Lit 436 10; Lit 0 1], [Lit 2805 1000; Lit (-5092) 1000000; Lit 0 1]);
          (Lit 67 1, [Lit (-1632) 1; Lit 4793 100; Lit 0 1], [Lit 4076 1000; Lit (-74) 10000; Lit 0 1]);
          (Lit 95 1, [Lit (-1757) 1; Lit 516 10; Lit 0 1], [Lit 6843 1000; Lit (-12424) 1000000; Lit 0 1])]
         (Some (FtoC (Lit (-25) 1))) (Some (FtoC (Lit 125 1))) (Some (DFtoDC (Lit 1 1))) (Some Submerged) None None)) false (Some [Lit 1 1])
       [lWholeTankF (Lit 111 1); lTopNode (DFtoDC (Lit 14 1))] [] None None None].
(** HPWHpresets.cc:4027-4079 *)
Definition lp_GenericUEF217 : lpreset :=
  mklpreset false 12 (FtoC (Lit 127 1)) None true (Gal (Lit 585 10)) (Lit 85 10) false true None
    [
     mklsrc (LElement 6 (Lit 4500 1)) true None
       [lTopThird (DFtoDC (Lit 19 1))] [] None None (Some 1%nat);
     mklsrc (LElement 0 (Lit 4500 1)) false None
       [lThirdSixth (FtoC (Lit 60 1))] [lBottomTwelfthMax (FtoC (Lit 85 1))] (Some 2%nat) None (Some 2%nat);
     mklsrc (LCondenser (mklcond
         [(Lit 50 1, [Lit 187064124 1000000; Lit 1939747 1000000; Lit 0 1], [Lit 54977772 10000000; Lit (-243008) 10000000; Lit 0 1]);
          (Lit 67 1, [Lit 1480418 10000; Lit 2553291 1000000; Lit 0 1], [Lit 6556322712161 1000000000000; Lit (-3974367485016) 100000000000000; Lit 0 1])]
         (Some (FtoC (Lit 45 1))) (Some (FtoC (Lit 120 1))) (Some (DFtoDC (Lit 2 1))) (Some Wrapped) None None)) false (Some [Lit 1 1; Lit 0 1; Lit 0 1])
       [lBottomThird (DFtoDC (Lit 30 1)); lTopNode (DFtoDC (Lit 11 1))] [] (Some 1%nat) None None].
(** HPWHpresets.cc:4080-4155 *)
Definition lp_AWHSTier4Generic40 : lpreset :=
  mklpreset false 12 (FtoC (Lit 127 1)) None true (Gal (Lit 36 1)) (Lit 5 1) false true None
    [
     mklsrc (LElement 8 (Lit 4500 1)) true None
       [lTopThird (DFtoDC (Lit 12 1))] [] None (Some 2%nat) (Some 2%nat);
     mklsrc (LElement 0 (Lit 4500 1)) false None
       [lThirdSixth (DFtoDC (Lit 60 1))] [lBottomTwelfthMax (FtoC (Lit 80 1))] (Some 2%nat) None (Some 2%nat);
     mklsrc (LCondenser (mklcond
         [(Lit 50 1, [Lit 1269 10; Lit 2215 1000; Lit 0 1], [Lit 6931 1000; Lit (-3395) 100000; Lit 0 1]);
          (Lit 675 10, [Lit 1166 10; Lit 2467 1000; Lit 0 1], [Lit 8833 1000; Lit (-4431) 100000; Lit 0 1]);
          (Lit 95 1, [Lit 1004 10; Lit 2863 1000; Lit 0 1], [Lit 11822 1000; Lit (-6059) 100000; Lit 0 1])]
         (Some (FtoC (Lit 37 1))) (Some (FtoC (Lit 120 1))) (Some (DFtoDC (Lit 1 1))) (Some Wrapped) (Some (FtoC (Lit 160 1))) None)) false (Some [Lit 2 10; Lit 2 10; Lit 2 10; Lit 2 10; Lit 2 10; Lit 0 1; Lit 0 1; Lit 0 1; Lit 0 1; Lit 0 1; Lit 0 1; Lit 0 1])
       [lBottomThird (DFtoDC (Lit 30 1)); lTopNode (DFtoDC (Lit 9 1))] [] (Some 1%nat) None None].
(** HPWHpresets.cc:4080-4155 *)
Definition lp_AWHSTier4Generic50 : lpreset :=
  mklpreset false 12 (FtoC (Lit 127 1)) None true (Gal (Lit 45 1)) (Lit 65 10) false true None
    [
     mklsrc (LElement 8 (Lit 4500 1)) true None
       [lTopThird (DFtoDC (Lit 12 1))] [] None (Some 2%nat) (Some 2%nat);
     mklsrc (LElement 0 (Lit 4500 1)) false None
       [lThirdSixth (DFtoDC (Lit 60 1))] [lBottomTwelfthMax (FtoC (Lit 80 1))] (Some 2%nat) None (Some 2%nat);
     mklsrc (LCondenser (mklcond
         [(Lit 50 1, [Lit 1269 10; Lit 2215 1000; Lit 0 1], [Lit 6931 1000; Lit (-3395) 100000; Lit 0 1]);
          (Lit 675 10, [Lit 1166 10; Lit 2467 1000; Lit 0 1], [Lit 8833 1000; Lit (-4431) 100000; Lit 0 1]);
          (Lit 95 1, [Lit 1004 10; Lit 2863 1000; Lit 0 1], [Lit 11822 1000; Lit (-6059) 100000; Lit 0 1])]
         (Some (FtoC (Lit 37 1))) (Some (FtoC (Lit 120 1))) (Some (DFtoDC (Lit 1 1))) (Some Wrapped) (Some (FtoC (Lit 160 1))) None)) false (Some [Lit 2 10; Lit 2 10; Lit 2 10; Lit 2 10; Lit 2 10; Lit 0 1; Lit 0 1; Lit 0 1; Lit 0 1; Lit 0 1; Lit 0 1; Lit 0 1])
       [lBottomThird (DFtoDC (Lit 30 1)); lTopNode (DFtoDC (Lit 9 1))] [] (Some 1%nat) None None].
(** HPWHpresets.cc:4080-4155 *)
Definition lp_AWHSTier4Generic65 : lpreset :=
  mklpreset false 12 (FtoC (Lit 127 1)) None true (Gal (Lit 64 1)) (Lit 76 10) false true None
    [
     mklsrc (LElement 8 (Lit 4500 1)) true None
       [lTopThird (DFtoDC (Lit 12 1))] [] None (Some 2%nat) (Some 2%nat);
     mklsrc (LElement 0 (Lit 4500 1)) false None
       [lThirdSixth (DFtoDC (Lit 60 1))] [lBottomTwelfthMax (FtoC (Lit 80 1))] (Some 2%nat) None (Some 2%nat);
     mklsrc (LCondenser (mklcond
         [(Lit 50 1, [Lit 1269 10; Lit 2215 1000; Lit 0 1], [Lit 6931 1000; Lit (-3395) 100000; Lit 0 1]);
          (Lit 675 10, [Lit 1166 10; Lit 2467 1000; Lit 0 1], [Lit 8833 1000; Lit (-4431) 100000; Lit 0 1]);
          (Lit 95 1, [Lit 1004 10; Lit 2863 1000; Lit 0 1], [Lit 11822 1000; Lit (-6059) 100000; Lit 0 1])]
         (Some (FtoC (Lit 37 1))) (Some (FtoC (Lit 120 1))) (Some (DFtoDC (Lit 1 1))) (Some Wrapped) (Some (FtoC (Lit 160 1))) None)) false (Some [Lit 2 10; Lit 2 10; Lit 2 10; Lit 2 10; Lit 2 10; Lit 0 1; Lit 0 1; Lit 0 1; Lit 0 1; Lit 0 1; Lit 0 1; Lit 0 1])
       [lBottomThird (DFtoDC (Lit 30 1)); lTopNode (DFtoDC (Lit 9 1))] [] (Some 1%nat) None None].
(** HPWHpresets.cc:4080-4155 *)
Definition lp_AWHSTier4Generic80 : lpreset :=
  mklpreset false 12 (FtoC (Lit 127 1)) None true (Gal (Lit 754 10)) (Lit 10 1) false true None
    [
     mklsrc (LElement 8 (Lit 4500 1)) true None
       [lTopThird (DFtoDC (Lit 12 1))] [] None (Some 2%nat) (Some 2%nat);
     mklsrc (LElement 0 (Lit 4500 1)) false None
       [lThirdSixth (DFtoDC (Lit 60 1))] [lBottomTwelfthMax (FtoC (Lit 80 1))] (Some 2%nat) None (Some 2%nat);
     mklsrc (LCondenser (mklcond
         [(Lit 50 1, [Lit 1269 10; Lit 2215 1000; Lit 0 1], [Lit 6931 1000; Lit (-3395) 100000; Lit 0 1]);
          (Lit 675 10, [Lit 1166 10; Lit 2467 1000; Lit 0 1], [Lit 8833 1000; Lit (-4431) 100000; Lit 0 1]);
          (Lit 95 1, [Lit 1004 10; Lit 2863 1000; Lit 0 1], [Lit 11822 1000; Lit (-6059) 100000; Lit 0 1])]
         (Some (FtoC (Lit 37 1))) (Some (FtoC (Lit 120 1))) (Some (DFtoDC (Lit 1 1))) (Some Wrapped) (Some (FtoC (Lit 160 1))) None)) false (Some [Lit 2 10; Lit 2 10; Lit 2 10; Lit 2 10; Lit 2 10; Lit 0 1; Lit 0 1; Lit 0 1; Lit 0 1; Lit 0 1; Lit 0 1; Lit 0 1])
       [lBottomThird (DFtoDC (Lit 30 1)); lTopNode (DFtoDC (Lit 9 1))] [] (Some 1%nat) None None].
(** HPWHpresets.cc:4156-4250 *)
Definition lp_BradfordWhiteAeroThermRE2H50 : lpreset :=
  mklpreset false 12 (FtoC (Lit 127 1)) None true (Gal (Lit 45 1)) (Lit 68373 10000) false false None
    [
     mklsrc (LElement 6 (Lit 4000 1)) true None
       [lFourthSixth (DFtoDC (Lit 32 1))] [] None None (Some 1%nat);
     mklsrc (LElement 0 (Lit 4000 1)) false (Some [Lit 0 1; Lit 2 10; Lit 8 10; Lit 0 1; Lit 0 1; Lit 0 1; Lit 0 1; Lit 0 1; Lit 0 1; Lit 0 1; Lit 0 1; Lit 0 1])
       [] [lBottomTwelfthMax (FtoC (Lit 861 10))] (Some 2%nat) None (Some 2%nat);
     mklsrc (LCondenser (mklcond
         [(Lit 50 1, [Lit 120 1; Lit 245 100; Lit 0 1], [Lit 63 10; Lit (-3) 100; Lit 0 1]);
          (Lit 70 1, [Lit 124 1; Lit 245 100; Lit 0 1], [Lit 68 10; Lit (-3) 100; Lit 0 1])]
         (Some (FtoC (Lit 37 1))) (Some (FtoC (Lit 120 1))) (Some (DFtoDC (Lit 2 1))) (Some Wrapped) (Some (FtoC (Lit 160 1))) None)) false (Some [Lit 1 1; Lit 0 1; Lit 0 1])
       [lBottomThird (DFtoDC (Lit 25 1)); lTopNode (DFtoDC (Lit 12392 1000))] [] (Some 1%nat) None None].
(** HPWHpresets.cc:4156-4250 *)
Definition lp_BradfordWhiteAeroThermRE2H65 : lpreset :=
  mklpreset false 12 (FtoC (Lit 127 1)) None true (Gal (Lit 64 1)) (Lit 67292 10000) false false None
    [
     mklsrc (LElement 6 (Lit 4000 1)) true None
       [lFourthSixth (DFtoDC (Lit 32 1))] [] None None (Some 1%nat);
     mklsrc (LElement 0 (Lit 4000 1)) false (Some [Lit 0 1; Lit 2 10; Lit 8 10; Lit 0 1; Lit 0 1; Lit 0 1; Lit 0 1; Lit 0 1; Lit 0 1; Lit 0 1; Lit 0 1; Lit 0 1])
       [] [lBottomTwelfthMax (FtoC (Lit 861 10))] (Some 2%nat) None (Some 2%nat);
     mklsrc (LCondenser (mklcond
         [(Lit 50 1, [Lit 120 1; Lit 245 100; Lit 0 1], [Lit 63 10; Lit (-3) 100; Lit 0 1]);
          (Lit 70 1, [Lit 124 1; Lit 245 100; Lit 0 1], [Lit 68 10; Lit (-3) 100; Lit 0 1])]
         (Some (FtoC (Lit 37 1))) (Some (FtoC (Lit 120 1))) (Some (DFtoDC (Lit 2 1))) (Some Wrapped) (Some (FtoC (Lit 160 1))) None)) false (Some [Lit 1 1; Lit 0 1; Lit 0 1])
       [lBottomThird (DFtoDC (Lit 25 1)); lTopNode (DFtoDC (Lit 12392 1000))] [] (Some 1%nat) None None].
(** HPWHpresets.cc:4156-4250 *)
Definition lp_BradfordWhiteAeroThermRE2H80 : lpreset :=
  mklpreset false 12 (FtoC (Lit 127 1)) None true (Gal (Lit 75 1)) (Lit 72217 10000) false false None
    [
     mklsrc (LElement 6 (Lit 4000 1)) true None
       [lFourthSixth (DFtoDC (Lit 32 1))] [] None None (Some 1%nat);
     mklsrc (LElement 0 (Lit 4000 1)) false (Some [Lit 0 1; Lit 2 10; Lit 8 10; Lit 0 1; Lit 0 1; Lit 0 1; Lit 0 1; Lit 0 1; Lit 0 1; Lit 0 1; Lit 0 1; Lit 0 1])
       [] [lBottomTwelfthMax (FtoC (Lit 861 10))] (Some 2%nat) None (Some 2%nat);
     mklsrc (LCondenser (mklcond
         [(Lit 50 1, [Lit 120 1; Lit 245 100; Lit 0 1], [Lit 63 10; Lit (-3) 100; Lit 0 1]);
          (Lit 70 1, [Lit 124 1; Lit 245 100; Lit 0 1], [Lit 68 10; Lit (-3) 100; Lit 0 1])]
         (Some (FtoC (Lit 37 1))) (Some (FtoC (Lit 120 1))) (Some (DFtoDC (Lit 2 1))) (Some Wrapped) (Some (FtoC (Lit 160 1))) None)) false (Some [Lit 1 1; Lit 0 1; Lit 0 1])
       [lBottomThird (DFtoDC (Lit 25 1)); lTopNode (DFtoDC (Lit 12392 1000))] [] (Some 1%nat) None None].
(** HPWHpresets.cc:4251-4349 *)
Definition lp_LG_APHWC50 : lpreset :=
  mklpreset false 12 (FtoC (Lit 125 1)) None true (Gal (Lit 528 10)) (Lit 778 100) false false None
    [
     mklsrc (LElement 8 (Lit 5000 1)) true None
       [lTopThird (DFtoDC (Lit 39 1))] [] None (Some 2%nat) (Some 2%nat);
     mklsrc (LElement 0 (Lit 5000 1)) false None
       [] [] (Some 2%nat) None (Some 2%nat);
     mklsrc (LCondenser (mklcond
         [(Lit 50 1, [LSub (Lit 3558 10) (LMul (Lit 21 10) (LSub (Lit 124 1) (Lit 0 1))); Lit 21 10; Lit 0 1], [LSub (Lit 313 100) (LMul (Lit (-1) 100) (LSub (Lit 124 1) (Lit 0 1))); Lit (-1) 100; Lit 0 1]);
          (Lit 675 10, [LSub (Lit 272 1) (LMul (Lit 21 10) (LSub (Lit 124 1) (Lit 0 1))); Lit 21 10; Lit 0 1], [LSub (Lit 425 100) (LMul (Lit (-1) 100) (LSub (Lit 124 1) (Lit 0 1))); Lit (-1) 100; Lit 0 1]);
          (Lit 95 1, [LSub (Lit 2605 10) (LMul (Lit 21 10) (LSub (Lit 124 1) (Lit 0 1))); Lit 21 10; Lit 0 1], [LSub (Lit 656 100) (LMul (Lit (-1) 100) (LSub (Lit 124 1) (Lit 0 1))); Lit (-1) 100; Lit 0 1])]
         (Some (FtoC (Lit 23 1))) (Some (FtoC (Lit 120 1))) (Some (DFtoDC (Lit 1 1))) (Some Wrapped) (Some (FtoC (Lit 160 1))) None)) false (Some [Lit 17 100; Lit 166 1000; Lit 166 1000; Lit 166 1000; Lit 166 1000; Lit 166 1000; Lit 0 1; Lit 0 1; Lit 0 1; Lit 0 1; Lit 0 1; Lit 0 1])
       [lBottomThird (DFtoDC (Lit 529 10)); lTopNode (DFtoDC (Lit 9 1))] [] (Some 1%nat) None None].
(** HPWHpresets.cc:4251-4349 *)
Definition lp_LG_APHWC80 : lpreset :=
  mklpreset false 12 (FtoC (Lit 125 1)) None true (Gal (Lit 72 1)) (Lit 1083 100) false false None
    [
     mklsrc (LElement 8 (Lit 5000 1)) true None
       [lTopThird (DFtoDC (Lit 39 1))] [] None (Some 2%nat) (Some 2%nat);
     mklsrc (LElement 0 (Lit 5000 1)) false None
       [] [] (Some 2%nat) None (Some 2%nat);
     mklsrc (LCondenser (mklcond
         [(Lit 50 1, [LSub (Lit 3558 10) (LMul (Lit 21 10) (LSub (Lit 124 1) (Lit 0 1))); Lit 21 10; Lit 0 1], [LSub (Lit 313 100) (LMul (Lit (-1) 100) (LSub (Lit 124 1) (Lit 0 1))); Lit (-1) 100; Lit 0 1]);
          (Lit 675 10, [LSub (Lit 272 1) (LMul (Lit 21 10) (LSub (Lit 124 1) (Lit 0 1))); Lit 21 10; Lit 0 1], [LSub (Lit 425 100) (LMul (Lit (-1) 100) (LSub (Lit 124 1) (Lit 0 1))); Lit (-1) 100; Lit 0 1]);
          (Lit 95 1, [LSub (Lit 2605 10) (LMul (Lit 21 10) (LSub (Lit 124 1) (Lit 0 1))); Lit 21 10; Lit 0 1], [LSub (Lit 656 100) (LMul (Lit (-1) 100) (LSub (Lit 124 1) (Lit 0 1))); Lit (-1) 100; Lit 0 1])]
         (Some (FtoC (Lit 23 1))) (Some (FtoC (Lit 120 1))) (Some (DFtoDC (Lit 1 1))) (Some Wrapped) (Some (FtoC (Lit 160 1))) None)) false (Some [Lit 17 100; Lit 166 1000; Lit 166 1000; Lit 166 1000; Lit 166 1000; Lit 166 1000; Lit 0 1; Lit 0 1; Lit 0 1; Lit 0 1; Lit 0 1; Lit 0 1])
       [lBottomThird (DFtoDC (Lit 529 10)); lTopNode (DFtoDC (Lit 9 1))] [] (Some 1%nat) None None].

(** the branch taken for a preset *)
Definition lpresetOf (m : lmodel) : lpreset :=
  match m with
  | M_restankNoUA => lp_restankNoUA
  | M_restankHugeUA => lp_restankHugeUA
  | M_restankRealistic => lp_restankRealistic
  | M_StorageTank => lp_StorageTank
  | M_basicIntegrated => lp_basicIntegrated
  | M_AOSmithPHPT60 => lp_AOSmithPHPT60
  | M_AOSmithPHPT80 => lp_AOSmithPHPT80
  | M_GE2012_50 => lp_GE2012_50
  | M_AOSmithHPTU50 => lp_AOSmithHPTU50
  | M_RheemHBDR2250 => lp_RheemHBDR2250
  | M_RheemHBDR4550 => lp_RheemHBDR4550
  | M_AOSmithHPTU66 => lp_AOSmithHPTU66
  | M_RheemHBDR2265 => lp_RheemHBDR2265
  | M_RheemHBDR4565 => lp_RheemHBDR4565
  | M_AOSmithHPTU80 => lp_AOSmithHPTU80
  | M_RheemHBDR2280 => lp_RheemHBDR2280
  | M_RheemHBDR4580 => lp_RheemHBDR4580
  | M_AOSmithHPTU80_DR => lp_AOSmithHPTU80_DR
  | M_AOSmithCAHP120 => lp_AOSmithCAHP120
  | M_AOSmithHPTS40 => lp_AOSmithHPTS40
  | M_AOSmithHPTS50 => lp_AOSmithHPTS50
  | M_AOSmithHPTS66 => lp_AOSmithHPTS66
  | M_AOSmithHPTS80 => lp_AOSmithHPTS80
  | M_GE2014STDMode_50 => lp_GE2014STDMode_50
  | M_GE2014STDMode_80 => lp_GE2014STDMode_80
  | M_GE2014_50 => lp_GE2014_50
  | M_GE2014_80 => lp_GE2014_80
  | M_GE2014_80DR => lp_GE2014_80DR
  | M_BWC2020_65 => lp_BWC2020_65
  | M_Rheem2020Prem40 => lp_Rheem2020Prem40
  | M_Rheem2020Prem50 => lp_Rheem2020Prem50
  | M_Rheem2020Prem65 => lp_Rheem2020Prem65
  | M_Rheem2020Prem80 => lp_Rheem2020Prem80
  | M_Rheem2020Build40 => lp_Rheem2020Build40
  | M_Rheem2020Build50 => lp_Rheem2020Build50
  | M_Rheem2020Build65 => lp_Rheem2020Build65
  | M_Rheem2020Build80 => lp_Rheem2020Build80
  | M_RheemPlugInShared40 => lp_RheemPlugInShared40
  | M_RheemPlugInShared50 => lp_RheemPlugInShared50
  | M_RheemPlugInShared65 => lp_RheemPlugInShared65
  | M_RheemPlugInShared80 => lp_RheemPlugInShared80
  | M_RheemPlugInDedicated40 => lp_RheemPlugInDedicated40
  | M_RheemPlugInDedicated50 => lp_RheemPlugInDedicated50
  | M_RheemHB50 => lp_RheemHB50
  | M_Stiebel220E => lp_Stiebel220E
  | M_Generic1 => lp_Generic1
  | M_Generic2 => lp_Generic2
  | M_Generic3 => lp_Generic3
  | M_UEF2generic => lp_UEF2generic
  | M_AWHSTier3Generic40 => lp_AWHSTier3Generic40
  | M_AWHSTier3Generic50 => lp_AWHSTier3Generic50
  | M_AWHSTier3Generic65 => lp_AWHSTier3Generic65
  | M_AWHSTier3Generic80 => lp_AWHSTier3Generic80
  | M_AquaThermAire => lp_AquaThermAire
  | M_GenericUEF217 => lp_GenericUEF217
  | M_AWHSTier4Generic40 => lp_AWHSTier4Generic40
  | M_AWHSTier4Generic50 => lp_AWHSTier4Generic50
  | M_AWHSTier4Generic65 => lp_AWHSTier4Generic65
  | M_AWHSTier4Generic80 => lp_AWHSTier4Generic80
  | M_BradfordWhiteAeroThermRE2H50 => lp_BradfordWhiteAeroThermRE2H50
  | M_BradfordWhiteAeroThermRE2H65 => lp_BradfordWhiteAeroThermRE2H65
  | M_BradfordWhiteAeroThermRE2H80 => lp_BradfordWhiteAeroThermRE2H80
  | M_LG_APHWC50 => lp_LG_APHWC50
  | M_LG_APHWC80 => lp_LG_APHWC80
  end.
