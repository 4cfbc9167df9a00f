(** The enumeration of presets and what is chosen by a model's number: the branch of initLegacy, the
    adjustments of configure, the interpolation of tables.  Names and numbers are those of
    /repo/test/models_json/models.json, from which scripts/python/data_model/incorporate_presets.py and the
    templates presets.h.j2 and presets.cpp.j2 in scripts/python/templates generate enumeration and lookup. *)

From Coq Require Import ZArith String List Bool.
From Verif Require Import Num Base Types HeatSrc Setters Config Init Legacy LegacyTable ExtPreset ExtTable.
Import ListNotations.
Local Open Scope string_scope.
Local Open Scope Z_scope.

(** test/models_json/models.json:1-115 *)
Definition models : list (string * Z) :=
  [("restankNoUA", 1);
   ("restankHugeUA", 2);
   ("restankRealistic", 3);
   ("basicIntegrated", 4);
   ("AOSmithCAHP120", 108);
   ("AOSmithHPTS40", 1100);
   ("AOSmithHPTS50", 1101);
   ("AOSmithHPTS66", 1102);
   ("AOSmithHPTS80", 1103);
   ("AOSmithHPTU50", 104);
   ("AOSmithHPTU66", 105);
   ("AOSmithHPTU80", 106);
   ("AOSmithHPTU80_DR", 107);
   ("AOSmithPHPT60", 102);
   ("AOSmithPHPT80", 103);
   ("AquaThermAire", 400);
   ("AWHSTier3Generic40", 175);
   ("AWHSTier3Generic50", 176);
   ("AWHSTier3Generic65", 177);
   ("AWHSTier3Generic80", 178);
   ("AWHSTier4Generic40", 1175);
   ("AWHSTier4Generic50", 1176);
   ("AWHSTier4Generic65", 1177);
   ("AWHSTier4Generic80", 1178);
   ("BWC2020_65", 116);
   ("GE2012_50", 110);
   ("GE2014STDMode_50", 111);
   ("GE2014STDMode_80", 113);
   ("GE2014_50", 112);
   ("GE2014_80", 114);
   ("GE2014_80DR", 115);
   ("Generic1", 170);
   ("Generic2", 171);
   ("Generic3", 172);
   ("GenericUEF217", 179);
   ("Rheem2020Build40", 155);
   ("Rheem2020Build50", 156);
   ("Rheem2020Build65", 157);
   ("Rheem2020Build80", 158);
   ("Rheem2020Prem40", 151);
   ("Rheem2020Prem50", 152);
   ("Rheem2020Prem65", 153);
   ("Rheem2020Prem80", 154);
   ("RheemHB50", 140);
   ("RheemHBDR2250", 141);
   ("RheemHBDR2265", 143);
   ("RheemHBDR2280", 145);
   ("RheemHBDR4550", 142);
   ("RheemHBDR4565", 144);
   ("RheemHBDR4580", 146);
   ("RheemPlugInDedicated40", 1160);
   ("RheemPlugInDedicated50", 1161);
   ("RheemPlugInShared40", 1150);
   ("RheemPlugInShared50", 1151);
   ("RheemPlugInShared65", 1152);
   ("RheemPlugInShared80", 1153);
   ("Stiebel220E", 160);
   ("UEF2generic", 173);
   ("LG_APHWC50", 600);
   ("LG_APHWC80", 601);
   ("BradfordWhiteAeroThermRE2H50", 500);
   ("BradfordWhiteAeroThermRE2H65", 501);
   ("BradfordWhiteAeroThermRE2H80", 502);
   ("BradfordWhiteAeroThermRE2HP50", 503);
   ("BradfordWhiteAeroThermRE2HP65", 504);
   ("BradfordWhiteAeroThermRE2HP80", 505);
   ("StorageTank", 180);
   ("Sanco43", 120);
   ("Sanco83", 121);
   ("SancoGS3_45HPA_US_SP", 122);
   ("Sanco119", 123);
   ("TamScalable_SP", 190);
   ("TamScalable_SP_2X", 191);
   ("TamScalable_SP_Half", 192);
   ("Scalable_MP", 193);
   ("Mitsubishi_QAHV_N136TAU_HPB_SP", 250);
   ("ColmacCxV_5_SP", 210);
   ("ColmacCxA_10_SP", 211);
   ("ColmacCxA_15_SP", 212);
   ("ColmacCxA_20_SP", 213);
   ("ColmacCxA_25_SP", 214);
   ("ColmacCxA_30_SP", 215);
   ("ColmacCxV_5_MP", 310);
   ("ColmacCxA_10_MP", 311);
   ("ColmacCxA_15_MP", 312);
   ("ColmacCxA_20_MP", 313);
   ("ColmacCxA_25_MP", 314);
   ("ColmacCxA_30_MP", 315);
   ("NyleC25A_SP", 230);
   ("NyleC60A_SP", 231);
   ("NyleC90A_SP", 232);
   ("NyleC125A_SP", 233);
   ("NyleC185A_SP", 234);
   ("NyleC250A_SP", 235);
   ("NyleC60A_C_SP", 241);
   ("NyleC90A_C_SP", 242);
   ("NyleC125A_C_SP", 243);
   ("NyleC185A_C_SP", 244);
   ("NyleC250A_C_SP", 245);
   ("NyleC60A_MP", 331);
   ("NyleC90A_MP", 332);
   ("NyleC125A_MP", 333);
   ("NyleC185A_MP", 334);
   ("NyleC250A_MP", 335);
   ("NyleC60A_C_MP", 341);
   ("NyleC90A_C_MP", 342);
   ("NyleC125A_C_MP", 343);
   ("NyleC185A_C_MP", 344);
   ("NyleC250A_C_MP", 345);
   ("RheemHPHD60", 350);
   ("RheemHPHD135", 353);
   ("IceAirccHPWH275D", 1200);
   ("IceAirccHPWH550D", 1201)].
(** presets.cpp.j2:20-28, 30-39: the first entry of that name or number, otherwise number -1 and name "unknown" *)
Definition find_by_name (s : string) : string * Z :=
  match find (fun e => String.eqb (fst e) s) models with Some e => e | None => ("unknown", -1) end.
Definition find_by_id (z : Z) : string * Z :=
  match find (fun e => snd e =? z) models with Some e => e | None => ("unknown", -1) end.
(** HPWH.cc:3048-3053 getPresetNumberFromName: number and success *)
Definition getPresetNumberFromName (s : string) : Z * bool :=
  let z := snd (find_by_name s) in (z, negb (z =? -1)).
(** HPWH.cc:3056-3065 getPresetNameFromNumber *)
Definition getPresetNameFromNumber (z : Z) : option string :=
  let e := find_by_id z in if negb (snd e =? -1) then Some (fst e) else None.

(** HPWHpresets.cc:357-4353: the chain of conditions on presetNum; the line of the first that holds.  The
    enumerators are replaced by their numbers. *)
Definition branchOf (z : Z) : option Z :=
  if (z =? 1) then Some 357 else
  if (z =? 2) then Some 387 else
  if (z =? 3) then Some 418 else
  if (z =? 180) then Some 448 else
  if (z =? 4) then Some 465 else
  if (z =? 102) then Some 527 else
  if (z =? 103) then Some 591 else
  if (z =? 110) then Some 656 else
  if (210 <=? z) && (z <=? 215) then Some 725 else
  if (310 <=? z) && (z <=? 315) then Some 973 else
  if (230 <=? z) && (z <=? 245) then Some 1164 else
  if (331 <=? z) && (z <=? 345) then Some 1438 else
  if (350 <=? z) && (z <=? 353) then Some 1660 else
  if (z =? 250) then Some 1754 else
  if (z =? 121) || (z =? 122) || (z =? 123) then Some 2019 else
  if (z =? 120) then Some 2108 else
  if (z =? 104) || (z =? 141) || (z =? 142) then Some 2173 else
  if (z =? 105) || (z =? 143) || (z =? 144) then Some 2272 else
  if (z =? 106) || (z =? 145) || (z =? 146) then Some 2377 else
  if (z =? 107) then Some 2477 else
  if (z =? 108) then Some 2545 else
  if (1100 <=? z) && (z <=? 1103) then Some 2620 else
  if (z =? 111) then Some 2722 else
  if (z =? 113) then Some 2780 else
  if (z =? 112) then Some 2834 else
  if (z =? 114) then Some 2895 else
  if (z =? 115) then Some 2957 else
  if (z =? 116) then Some 3017 else
  if (151 <=? z) && (z <=? 154) then Some 3074 else
  if (155 <=? z) && (z <=? 158) then Some 3160 else
  if (1150 <=? z) && (z <=? 1153) then Some 3244 else
  if (z =? 1160) || (z =? 1161) then Some 3336 else
  if (z =? 140) then Some 3384 else
  if (z =? 160) then Some 3445 else
  if (z =? 170) then Some 3490 else
  if (z =? 171) then Some 3545 else
  if (z =? 172) then Some 3602 else
  if (z =? 173) then Some 3661 else
  if (175 <=? z) && (z <=? 178) then Some 3717 else
  if (190 <=? z) && (z <=? 192) then Some 3796 else
  if (z =? 193) then Some 3907 else
  if (z =? 400) then Some 3979 else
  if (z =? 179) then Some 4027 else
  if (1175 <=? z) && (z <=? 1178) then Some 4080 else
  if (500 <=? z) && (z <=? 502) then Some 4156 else
  if (z =? 600) || (z =? 601) then Some 4251 else
  None.

(** HPWH.cc:3069-3115: the classes of presets of configure *)
Definition classOf (z : Z) : preset :=
  if z =? 110 then PGE2012_50
  else if (z =? 121) || (z =? 122) || (z =? 123) || (z =? 120) then PSanco
  else if (230 <=? z) && (z <=? 245) then PShutoff
  else if (210 <=? z) && (z <=? 215) then PShutoff
  else if z =? 250 then PShutoff
  else if z =? 193 then PScalableMP
  else if (190 <=? z) && (z <=? 192) then PTamScalable
  else POther.

(** the methods of btwxt *)
Inductive interpolation : Set := ILinear | ICubic.
Inductive extrapolation : Set := EConstant | ELinear.
(** Condenser.cc:1287-1358 setUpGridAxes: for each axis its points and methods; perfGrid[0] and perfGrid[1] are not checked *)
Definition setUpGridAxes {T : Type} (z : Z) (cfg : coil) (grid : list (list T)) : outc (list (list T * interpolation * extrapolation)) :=
  let integrated := match cfg with External => false | _ => true end in
  let mitsubishi := z =? 250 in
  let nyleMP := (331 <=? z) && (z <=? 345) in
  match grid with
  | a :: b :: r =>
      let m1 := if mitsubishi || nyleMP || integrated then ILinear else ICubic in
      let e1 := if mitsubishi || nyleMP then EConstant else ELinear in
      let m2 := if mitsubishi || nyleMP then ILinear else ICubic in
      let e2 := if mitsubishi then ELinear else if nyleMP then EConstant else ELinear in
      let e3 := if mitsubishi then EConstant else ELinear in
      Ok ((a, m1, e1) :: (b, m2, e2) :: match r with c :: _ => [(c, ILinear, e3)] | [] => [] end)
  | _ => UB "perfGrid index"
  end.

(** the descriptions of LegacyTable.v and ExtTable.v: name, number of the line of their branch *)
Definition lname (m : lmodel) : string * Z :=
  match m with
  | M_restankNoUA => ("restankNoUA", 357)
  | M_restankHugeUA => ("restankHugeUA", 387)
  | M_restankRealistic => ("restankRealistic", 418)
  | M_StorageTank => ("StorageTank", 448)
  | M_basicIntegrated => ("basicIntegrated", 465)
  | M_AOSmithPHPT60 => ("AOSmithPHPT60", 527)
  | M_AOSmithPHPT80 => ("AOSmithPHPT80", 591)
  | M_GE2012_50 => ("GE2012_50", 656)
  | M_AOSmithHPTU50 => ("AOSmithHPTU50", 2173)
  | M_RheemHBDR2250 => ("RheemHBDR2250", 2173)
  | M_RheemHBDR4550 => ("RheemHBDR4550", 2173)
  | M_AOSmithHPTU66 => ("AOSmithHPTU66", 2272)
  | M_RheemHBDR2265 => ("RheemHBDR2265", 2272)
  | M_RheemHBDR4565 => ("RheemHBDR4565", 2272)
  | M_AOSmithHPTU80 => ("AOSmithHPTU80", 2377)
  | M_RheemHBDR2280 => ("RheemHBDR2280", 2377)
  | M_RheemHBDR4580 => ("RheemHBDR4580", 2377)
  | M_AOSmithHPTU80_DR => ("AOSmithHPTU80_DR", 2477)
  | M_AOSmithCAHP120 => ("AOSmithCAHP120", 2545)
  | M_AOSmithHPTS40 => ("AOSmithHPTS40", 2620)
  | M_AOSmithHPTS50 => ("AOSmithHPTS50", 2620)
  | M_AOSmithHPTS66 => ("AOSmithHPTS66", 2620)
  | M_AOSmithHPTS80 => ("AOSmithHPTS80", 2620)
  | M_GE2014STDMode_50 => ("GE2014STDMode_50", 2722)
  | M_GE2014STDMode_80 => ("GE2014STDMode_80", 2780)
  | M_GE2014_50 => ("GE2014_50", 2834)
  | M_GE2014_80 => ("GE2014_80", 2895)
  | M_GE2014_80DR => ("GE2014_80DR", 2957)
  | M_BWC2020_65 => ("BWC2020_65", 3017)
  | M_Rheem2020Prem40 => ("Rheem2020Prem40", 3074)
  | M_Rheem2020Prem50 => ("Rheem2020Prem50", 3074)
  | M_Rheem2020Prem65 => ("Rheem2020Prem65", 3074)
  | M_Rheem2020Prem80 => ("Rheem2020Prem80", 3074)
  | M_Rheem2020Build40 => ("Rheem2020Build40", 3160)
  | M_Rheem2020Build50 => ("Rheem2020Build50", 3160)
  | M_Rheem2020Build65 => ("Rheem2020Build65", 3160)
  | M_Rheem2020Build80 => ("Rheem2020Build80", 3160)
  | M_RheemPlugInShared40 => ("RheemPlugInShared40", 3244)
  | M_RheemPlugInShared50 => ("RheemPlugInShared50", 3244)
  | M_RheemPlugInShared65 => ("RheemPlugInShared65", 3244)
  | M_RheemPlugInShared80 => ("RheemPlugInShared80", 3244)
  | M_RheemPlugInDedicated40 => ("RheemPlugInDedicated40", 3336)
  | M_RheemPlugInDedicated50 => ("RheemPlugInDedicated50", 3336)
  | M_RheemHB50 => ("RheemHB50", 3384)
  | M_Stiebel220E => ("Stiebel220E", 3445)
  | M_Generic1 => ("Generic1", 3490)
  | M_Generic2 => ("Generic2", 3545)
  | M_Generic3 => ("Generic3", 3602)
  | M_UEF2generic => ("UEF2generic", 3661)
  | M_AWHSTier3Generic40 => ("AWHSTier3Generic40", 3717)
  | M_AWHSTier3Generic50 => ("AWHSTier3Generic50", 3717)
  | M_AWHSTier3Generic65 => ("AWHSTier3Generic65", 3717)
  | M_AWHSTier3Generic80 => ("AWHSTier3Generic80", 3717)
  | M_AquaThermAire => ("AquaThermAire", 3979)
  | M_GenericUEF217 => ("GenericUEF217", 4027)
  | M_AWHSTier4Generic40 => ("AWHSTier4Generic40", 4080)
  | M_AWHSTier4Generic50 => ("AWHSTier4Generic50", 4080)
  | M_AWHSTier4Generic65 => ("AWHSTier4Generic65", 4080)
  | M_AWHSTier4Generic80 => ("AWHSTier4Generic80", 4080)
  | M_BradfordWhiteAeroThermRE2H50 => ("BradfordWhiteAeroThermRE2H50", 4156)
  | M_BradfordWhiteAeroThermRE2H65 => ("BradfordWhiteAeroThermRE2H65", 4156)
  | M_BradfordWhiteAeroThermRE2H80 => ("BradfordWhiteAeroThermRE2H80", 4156)
  | M_LG_APHWC50 => ("LG_APHWC50", 4251)
  | M_LG_APHWC80 => ("LG_APHWC80", 4251)
  end.
Definition xname (m : xmodel) : string * Z :=
  match m with
  | X_ColmacCxV_5_SP => ("ColmacCxV_5_SP", 725)
  | X_ColmacCxA_10_SP => ("ColmacCxA_10_SP", 725)
  | X_ColmacCxA_15_SP => ("ColmacCxA_15_SP", 725)
  | X_ColmacCxA_20_SP => ("ColmacCxA_20_SP", 725)
  | X_ColmacCxA_25_SP => ("ColmacCxA_25_SP", 725)
  | X_ColmacCxA_30_SP => ("ColmacCxA_30_SP", 725)
  | X_ColmacCxV_5_MP => ("ColmacCxV_5_MP", 973)
  | X_ColmacCxA_10_MP => ("ColmacCxA_10_MP", 973)
  | X_ColmacCxA_15_MP => ("ColmacCxA_15_MP", 973)
  | X_ColmacCxA_20_MP => ("ColmacCxA_20_MP", 973)
  | X_ColmacCxA_25_MP => ("ColmacCxA_25_MP", 973)
  | X_ColmacCxA_30_MP => ("ColmacCxA_30_MP", 973)
  | X_NyleC25A_SP => ("NyleC25A_SP", 1164)
  | X_NyleC60A_SP => ("NyleC60A_SP", 1164)
  | X_NyleC90A_SP => ("NyleC90A_SP", 1164)
  | X_NyleC125A_SP => ("NyleC125A_SP", 1164)
  | X_NyleC185A_SP => ("NyleC185A_SP", 1164)
  | X_NyleC250A_SP => ("NyleC250A_SP", 1164)
  | X_NyleC60A_C_SP => ("NyleC60A_C_SP", 1164)
  | X_NyleC90A_C_SP => ("NyleC90A_C_SP", 1164)
  | X_NyleC125A_C_SP => ("NyleC125A_C_SP", 1164)
  | X_NyleC185A_C_SP => ("NyleC185A_C_SP", 1164)
  | X_NyleC250A_C_SP => ("NyleC250A_C_SP", 1164)
  | X_NyleC60A_MP => ("NyleC60A_MP", 1438)
  | X_NyleC90A_MP => ("NyleC90A_MP", 1438)
  | X_NyleC125A_MP => ("NyleC125A_MP", 1438)
  | X_NyleC185A_MP => ("NyleC185A_MP", 1438)
  | X_NyleC250A_MP => ("NyleC250A_MP", 1438)
  | X_NyleC60A_C_MP => ("NyleC60A_C_MP", 1438)
  | X_NyleC90A_C_MP => ("NyleC90A_C_MP", 1438)
  | X_NyleC125A_C_MP => ("NyleC125A_C_MP", 1438)
  | X_NyleC185A_C_MP => ("NyleC185A_C_MP", 1438)
  | X_NyleC250A_C_MP => ("NyleC250A_C_MP", 1438)
  | X_RheemHPHD60 => ("RheemHPHD60", 1660)
  | X_RheemHPHD135 => ("RheemHPHD135", 1660)
  | X_Mitsubishi_QAHV_N136TAU_HPB_SP => ("Mitsubishi_QAHV_N136TAU_HPB_SP", 1754)
  | X_Sanco83 => ("Sanco83", 2019)
  | X_SancoGS3_45HPA_US_SP => ("SancoGS3_45HPA_US_SP", 2019)
  | X_Sanco119 => ("Sanco119", 2019)
  | X_Sanco43 => ("Sanco43", 2108)
  | X_TamScalable_SP => ("TamScalable_SP", 3796)
  | X_TamScalable_SP_2X => ("TamScalable_SP_2X", 3796)
  | X_TamScalable_SP_Half => ("TamScalable_SP_Half", 3796)
  | X_Scalable_MP => ("Scalable_MP", 3907)
  end.
Definition described : list (lmodel + xmodel) :=
  (map inl [M_restankNoUA; M_restankHugeUA; M_restankRealistic; M_StorageTank; M_basicIntegrated; M_AOSmithPHPT60; M_AOSmithPHPT80; M_GE2012_50; M_AOSmithHPTU50; M_RheemHBDR2250; M_RheemHBDR4550; M_AOSmithHPTU66; M_RheemHBDR2265; M_RheemHBDR4565; M_AOSmithHPTU80; M_RheemHBDR2280; M_RheemHBDR4580; M_AOSmithHPTU80_DR; M_AOSmithCAHP120; M_AOSmithHPTS40; M_AOSmithHPTS50; M_AOSmithHPTS66; M_AOSmithHPTS80; M_GE2014STDMode_50; M_GE2014STDMode_80; M_GE2014_50; M_GE2014_80; M_GE2014_80DR; M_BWC2020_65; M_Rheem2020Prem40; M_Rheem2020Prem50; M_Rheem2020Prem65; M_Rheem2020Prem80; M_Rheem2020Build40; M_Rheem2020Build50; M_Rheem2020Build65; M_Rheem2020Build80; M_RheemPlugInShared40; M_RheemPlugInShared50; M_RheemPlugInShared65; M_RheemPlugInShared80; M_RheemPlugInDedicated40; M_RheemPlugInDedicated50; M_RheemHB50; M_Stiebel220E; M_Generic1; M_Generic2; M_Generic3; M_UEF2generic; M_AWHSTier3Generic40; M_AWHSTier3Generic50; M_AWHSTier3Generic65; M_AWHSTier3Generic80; M_AquaThermAire; M_GenericUEF217; M_AWHSTier4Generic40; M_AWHSTier4Generic50; M_AWHSTier4Generic65; M_AWHSTier4Generic80; M_BradfordWhiteAeroThermRE2H50; M_BradfordWhiteAeroThermRE2H65; M_BradfordWhiteAeroThermRE2H80; M_LG_APHWC50; M_LG_APHWC80] ++
   map inr [X_ColmacCxV_5_SP; X_ColmacCxA_10_SP; X_ColmacCxA_15_SP; X_ColmacCxA_20_SP; X_ColmacCxA_25_SP; X_ColmacCxA_30_SP; X_ColmacCxV_5_MP; X_ColmacCxA_10_MP; X_ColmacCxA_15_MP; X_ColmacCxA_20_MP; X_ColmacCxA_25_MP; X_ColmacCxA_30_MP; X_NyleC25A_SP; X_NyleC60A_SP; X_NyleC90A_SP; X_NyleC125A_SP; X_NyleC185A_SP; X_NyleC250A_SP; X_NyleC60A_C_SP; X_NyleC90A_C_SP; X_NyleC125A_C_SP; X_NyleC185A_C_SP; X_NyleC250A_C_SP; X_NyleC60A_MP; X_NyleC90A_MP; X_NyleC125A_MP; X_NyleC185A_MP; X_NyleC250A_MP; X_NyleC60A_C_MP; X_NyleC90A_C_MP; X_NyleC125A_C_MP; X_NyleC185A_C_MP; X_NyleC250A_C_MP; X_RheemHPHD60; X_RheemHPHD135; X_Mitsubishi_QAHV_N136TAU_HPB_SP; X_Sanco83; X_SancoGS3_45HPA_US_SP; X_Sanco119; X_Sanco43; X_TamScalable_SP; X_TamScalable_SP_2X; X_TamScalable_SP_Half; X_Scalable_MP])%list.
Definition dname (m : lmodel + xmodel) : string * Z := match m with inl m => lname m | inr m => xname m end.

Section Models.
  Context {T : Type} `{Num T}.
  Local Open Scope monad_scope.
  Notation W := (hpwh T).

  (** HPWHpresets.cc:344-4374 initLegacy: the branch of the number, by the description of the preset of that name; a
      number in the range of a branch without a name is outside the model *)
  Definition initLegacyId (z : Z) (ev : T -> T -> T -> perf T) (junk : nat -> hsrc T) : M W unit :=
    match branchOf z with
    | None =>
        modify (fun w => set_w_hs [] (setAllDefaults w)) ;;
        throw "You have tried to select a preset model which does not exist."
    | Some _ =>
        match find (fun m => String.eqb (fst (dname m)) (fst (find_by_id z))) described with
        | Some (inl m) => initLegacy (lpresetOf m) junk
        | Some (inr m) => initExternal (xpresetOf m) ev junk
        | None => undef "a number without a name"
        end
    end.
  (** HPWHpresets.cc:331-342 *)
  Definition initLegacyName (s : string) (ev : T -> T -> T -> perf T) (junk : nat -> hsrc T) : M W unit :=
    let '(z, ok) := getPresetNumberFromName s in
    if ok then initLegacyId z ev junk else throw "Unable to initialize model.".
  (** HPWH.cc:3159-3168 initFromJSON, after the data are read ([read]): the number is that of the name given, -1 if there is none *)
  Definition configureNamed (s : string) : M W unit := configure (classOf (fst (getPresetNumberFromName s))).
End Models.
