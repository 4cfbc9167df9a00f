(** The performance maps of the Colmac and Nyle single-pass presets (HPWHpresets.cc:725-971, 1164-1436)

    Each map holds two lists of coefficients, of the input power in kW and of the coefficient of performance, for the polynomial in the
    outside temperature, the outlet temperature and the temperature of the water drawn from the tank, in F.
    Not modelled: the first argument of the constructor, a temperature that the polynomial does not use. *)

From Coq Require Import ZArith List.
From Verif Require Import Num Base Types Perf Legacy ExtPreset ExtTable.
Import ListNotations.
Local Open Scope Z_scope.

Definition spMap : Set := (list lnum * list lnum)%type.

(** HPWHpresets.cc:776-801 *)
Definition mapColmacCxV_5 : spMap :=
  ([Lit 49621645063 10000000000; Lit (-96084144) 10000000000; Lit (-95647009) 10000000000; Lit (-11591196) 1000000000; Lit (-788517) 10000000000; Lit 886176 10000000000; Lit 1114142 10000000000; Lit 1832377 10000000000; Lit (-451308) 10000000000; Lit 411975 10000000000; Lit 3535 10000000000],
   [Lit 3818992242 1000000000; Lit 569412237 10000000000; Lit (-320101962) 10000000000; Lit (-12859036) 10000000000; Lit 576439 10000000000; Lit 1101241 10000000000; Lit (-352368) 10000000000; Lit (-2630301) 10000000000; Lit (-509365) 10000000000; Lit 369655 10000000000; Lit (-606) 10000000000]).

(** HPWHpresets.cc:814-839 *)
Definition mapColmacCxA_10 : spMap :=
  ([Lit 59786974243 10000000000; Lit 194445115 10000000000; Lit (-77802278) 10000000000; Lit 53809029 10000000000; Lit (-334832) 10000000000; Lit 186431 1000000000; Lit 119054 1000000000; Lit 40405 10000000000; Lit (-2538279) 10000000000; Lit (-477652) 10000000000; Lit 14101 10000000000],
   [Lit 36128563086 10000000000; Lit 527064498 10000000000; Lit (-278198945) 10000000000; Lit (-70529748) 10000000000; Lit 934705 10000000000; Lit 781711 10000000000; Lit (-359215) 10000000000; Lit (-2223206) 10000000000; Lit 359239 10000000000; Lit 727189 10000000000; Lit (-5037) 10000000000]).

(** HPWHpresets.cc:846-871 *)
Definition mapColmacCxA_15 : spMap :=
  ([Lit 155869846555 10000000000; Lit (-44503761) 10000000000; Lit (-577941202) 10000000000; Lit (-286911185) 10000000000; Lit (-803325) 10000000000; Lit 3399817 10000000000; Lit 2009576 10000000000; Lit 2494761 10000000000; Lit (-595773) 10000000000; Lit 14018 100000000; Lit 4312 10000000000],
   [Lit 16643120405 10000000000; Lit 515623393 10000000000; Lit (-11023993) 1000000000; Lit 4151443 1000000000; Lit 481544 10000000000; Lit 493424 10000000000; Lit (-262721) 10000000000; Lit (-2356218) 10000000000; Lit (-989625) 10000000000; Lit (-70572) 10000000000; Lit 4108 10000000000]).

(** HPWHpresets.cc:878-903 *)
Definition mapColmacCxA_20 : spMap :=
  ([Lit 230746692231 10000000000; Lit 248584608 10000000000; Lit (-1417927282) 10000000000; Lit (-253733303) 10000000000; Lit (-4882754) 10000000000; Lit 6508079 10000000000; Lit 2139934 10000000000; Lit 5552752 10000000000; Lit (-2026772) 10000000000; Lit 607338 10000000000; Lit 21571 10000000000],
   [Lit 1769266012 1000000000; Lit 525134783 10000000000; Lit (-8110204) 1000000000; Lit (-8715405) 10000000000; Lit 1274956 10000000000; Lit 369489 10000000000; Lit (-293775) 10000000000; Lit (-2778086) 10000000000; Lit (-95067) 10000000000; Lit 381186 10000000000; Lit (-3135) 10000000000]).

(** HPWHpresets.cc:910-935 *)
Definition mapColmacCxA_25 : spMap :=
  ([Lit 204185336541 10000000000; Lit (-236920615) 10000000000; Lit (-736219119) 10000000000; Lit (-260385082) 10000000000; Lit (-5048074) 10000000000; Lit 494051 1000000000; Lit 263266 1000000000; Lit 982005 1000000000; Lit (-223587) 10000000000; Lit 885101 10000000000; Lit 5649 10000000000],
   [Lit 8942843854 10000000000; Lit 677641611 10000000000; Lit (-1582927) 10000000000; Lit 48083998 10000000000; Lit 1196407 10000000000; Lit 334921 10000000000; Lit (-37874) 1000000000; Lit (-4146401) 10000000000; Lit (-1213363) 10000000000; Lit (-31856) 10000000000; Lit 6306 10000000000]).

(** HPWHpresets.cc:942-967 *)
Definition mapColmacCxA_30 : spMap :=
  ([Lit 113687485772 10000000000; Lit (-207292362) 10000000000; Lit 496254077 10000000000; Lit (-38394967) 10000000000; Lit (-5991041) 10000000000; Lit 1304318 10000000000; Lit 3099774 10000000000; Lit 12092717 10000000000; Lit (-1455509) 10000000000; Lit (-893889) 10000000000; Lit 18221 10000000000],
   [Lit 44170108542 10000000000; Lit 596384263 10000000000; Lit (-416104579) 10000000000; Lit (-17199887) 10000000000; Lit 774664 10000000000; Lit 1521934 10000000000; Lit (-251665) 10000000000; Lit (-3289731) 10000000000; Lit (-801823) 10000000000; Lit 325972 10000000000; Lit 2705 10000000000]).

(** HPWHpresets.cc:1227-1252 *)
Definition mapNyleC25A : spMap :=
  ([Lit 4060120364 1000000000; Lit (-20584279) 1000000000; Lit (-24201054) 1000000000; Lit (-7023945) 1000000000; Lit 17461 1000000000; Lit 110366 1000000000; Lit 60338 1000000000; Lit 120015 1000000000; Lit 111068 1000000000; Lit 138907 1000000000; Lit (-1569) 1000000000],
   [Lit 462979529 1000000000; Lit 6565684 100000000; Lit 1077377 1000000000; Lit 3428059 1000000000; Lit 243692 1000000000; Lit 21522 1000000000; Lit 5143 1000000000; Lit (-384778) 1000000000; Lit (-404744) 1000000000; Lit (-36277) 1000000000; Lit 19 10000000]).

(** HPWHpresets.cc:1263-1288 *)
Definition mapNyleC60A : spMap :=
  ([Lit (-1180905709) 10000000000; Lit 45354306 10000000000; Lit 314990479 10000000000; Lit (-406839757) 10000000000; Lit 2355294 10000000000; Lit 818684 10000000000; Lit 1943834 10000000000; Lit (-2160871) 10000000000; Lit 3053633 10000000000; Lit 3612413 10000000000; Lit (-35912) 10000000000],
   [Lit 68205043418 10000000000; Lit 860385185 10000000000; Lit (-748330699) 10000000000; Lit (-172447955) 10000000000; Lit 510842 10000000000; Lit 2187441 10000000000; Lit (-321036) 10000000000; Lit (-3311463) 10000000000; Lit (-215427) 1000000000; Lit 1307922 10000000000; Lit 5568 10000000000]).

(** HPWHpresets.cc:1299-1324 *)
Definition mapNyleC90A : spMap :=
  ([Lit 1327612215047 100000000000; Lit (-1014009337) 100000000000; Lit (-13401028549) 100000000000; Lit (-2325705976) 100000000000; Lit (-32515646) 100000000000; Lit 40270625 100000000000; Lit 1988733 100000000000; Lit 6945167 10000000000; Lit 6906789 10000000000; Lit 71091372 100000000000; Lit (-854352) 100000000000],
   [Lit 149112327987 100000000000; Lit 6616282153 100000000000; Lit 715307252 100000000000; Lit (-1269458185) 100000000000; Lit 31448571 100000000000; Lit 1765313 100000000000; Lit 6002498 100000000000; Lit (-45661397) 100000000000; Lit (-34003896) 100000000000; Lit (-4327766) 100000000000; Lit 176015 100000000000]).

(** HPWHpresets.cc:1335-1360 *)
Definition mapNyleC125A : spMap :=
  ([Lit (-3558277209) 1000000000; Lit (-38590968) 1000000000; Lit 136307181 1000000000; Lit (-16945699) 1000000000; Lit 983753 1000000000; Lit (-518201) 10000000000; Lit 476904 1000000000; Lit (-514211) 1000000000; Lit (-359172) 1000000000; Lit 266509 1000000000; Lit (-158646) 1000000000000],
   [Lit 4889555031 1000000000; Lit 117102769 1000000000; Lit (-60005795) 1000000000; Lit (-11871234) 1000000000; Lit (-179926) 10000000000; Lit 207293 1000000000; Lit (-14452) 1000000000; Lit (-492486) 1000000000; Lit (-376814) 1000000000; Lit 785911 10000000000; Lit 147884 100000000000]).

(** HPWHpresets.cc:1371-1396 *)
Definition mapNyleC185A : spMap :=
  ([Lit 1858007733 100000000; Lit (-215324777) 1000000000; Lit (-89782421) 1000000000; Lit 1503161 100000000; Lit 332503 1000000000; Lit 274216 1000000000; Lit 270498 10000000000; Lit 1387914 1000000000; Lit 449199 1000000000; Lit 829578 1000000000; Lit (-528641) 100000000000],
   [Lit (-629432348) 1000000000; Lit 181466663 1000000000; Lit 44047 100000000; Lit 12104957 1000000000; Lit (-661515) 10000000000; Lit 929975 10000000000; Lit 978042 10000000000; Lit (-872708) 1000000000; Lit (-1013945) 1000000000; Lit (-21852) 100000000; Lit 555444 100000000000]).

(** HPWHpresets.cc:1408-1433 *)
Definition mapNyleC250A : spMap :=
  ([Lit (-1389057656) 100000000; Lit 25902417 1000000000; Lit 304250541 1000000000; Lit 61695153 1000000000; Lit (-1474249) 1000000000; Lit (-1126845) 1000000000; Lit (-220192) 1000000000; Lit 1241026 1000000000; Lit 571009 1000000000; Lit (-479282) 1000000000; Lit 904063 100000000000],
   [Lit 7443904067 1000000000; Lit 185978755 1000000000; Lit (-98481635) 1000000000; Lit (-2500073) 1000000000; Lit 127658 1000000000; Lit 444321 1000000000; Lit 139547 1000000000; Lit (-1000195) 1000000000; Lit (-1140199) 1000000000; Lit (-877557) 10000000000; Lit 487405 100000000000]).

(** The map of a preset; the Nyle presets with and without the cold weather package share theirs. *)
Definition spMapOf (m : xmodel) : option spMap :=
  match m with
  | X_ColmacCxV_5_SP => Some mapColmacCxV_5
  | X_ColmacCxA_10_SP => Some mapColmacCxA_10
  | X_ColmacCxA_15_SP => Some mapColmacCxA_15
  | X_ColmacCxA_20_SP => Some mapColmacCxA_20
  | X_ColmacCxA_25_SP => Some mapColmacCxA_25
  | X_ColmacCxA_30_SP => Some mapColmacCxA_30
  | X_NyleC25A_SP => Some mapNyleC25A
  | X_NyleC60A_SP | X_NyleC60A_C_SP => Some mapNyleC60A
  | X_NyleC90A_SP | X_NyleC90A_C_SP => Some mapNyleC90A
  | X_NyleC125A_SP | X_NyleC125A_C_SP => Some mapNyleC125A
  | X_NyleC185A_SP | X_NyleC185A_C_SP => Some mapNyleC185A
  | X_NyleC250A_SP | X_NyleC250A_C_SP => Some mapNyleC250A
  | _ => None
  end.

Section Maps.
  Context {T : Type} `{Num T}.
  (** HPWH.cc:4527-4545 with these coefficients, for a compressor without secondary heat exchanger: by setpoint, outside and water temperature *)
  Definition spFun (k : spMap) (sp a c : T) : perf T :=
    match polySP (mkpoly (nofZ 0) (map lval (fst k)) (map lval (snd k))) (nofZ 0) sp a c with Ok q => q | _ => mkperf (nofZ 0) (nofZ 0) (nofZ 0) end.
End Maps.
