(** The performance maps of the Colmac multi-pass presets (HPWHpresets.cc:973-1162)

    Each map holds two lists of coefficients, of the input power in kW and of the coefficient of performance, for the polynomial in the
    outside temperature and the temperature of the water drawn from the tank, in F.
    Not modelled: the first argument of the constructor, a temperature that the polynomial does not use. *)

From Coq Require Import ZArith List.
From Verif Require Import Num Base Types Perf Legacy ExtPreset ExtTable.
Import ListNotations.
Local Open Scope Z_scope.

Definition mpMap : Set := (list lnum * list lnum)%type.

(** HPWHpresets.cc:1025-1040 *)
Definition mpColmacCxV_5 : mpMap :=
  ([Lit 58438525529 10000000000; Lit 3288231 10000000000; Lit (-49425584) 1000000000; Lit (-386642) 10000000000; Lit 4385362 10000000000; Lit 647268 10000000000],
   [Lit 6679056901 10000000000; Lit 499777846 10000000000; Lit 251828292 10000000000; Lit 699764 10000000000; Lit (-1552229) 10000000000; Lit (-2911167) 10000000000]).

(** HPWHpresets.cc:1054-1069 *)
Definition mpColmacCxA_10 : mpMap :=
  ([Lit 86918824405 10000000000; Lit 136666667 10000000000; Lit (-548348214) 10000000000; Lit (-208333) 10000000000; Lit 5301339 10000000000; Lit (-25) 1000000],
   [Lit 6944181117 10000000000; Lit 445926666 10000000000; Lit 213188804 10000000000; Lit 1172913 10000000000; Lit (-1387694) 10000000000; Lit (-2365885) 10000000000]).

(** HPWHpresets.cc:1076-1091 *)
Definition mpColmacCxA_15 : mpMap :=
  ([Lit 124908723958 10000000000; Lit 73988095 10000000000; Lit (-411417411) 10000000000; Lit 0 1; Lit 5789621 10000000000; Lit 696429 10000000000],
   [Lit 1284634952 1000000000; Lit 334658309 10000000000; Lit 19121906 10000000000; Lit 284097 1000000000; Lit 497136 10000000000; Lit (-4401737) 10000000000]).

(** HPWHpresets.cc:1100-1115 *)
Definition mpColmacCxA_20 : mpMap :=
  ([Lit 144893345424 10000000000; Lit 355357143 10000000000; Lit (-476593192) 10000000000; Lit (-2916667) 10000000000; Lit 6120954 10000000000; Lit 3607143 10000000000],
   [Lit 12421582831 10000000000; Lit 450256569 10000000000; Lit 51234755 10000000000; Lit 1271296 10000000000; Lit (-299981) 10000000000; Lit (-2910606) 10000000000]).

(** HPWHpresets.cc:1122-1137 *)
Definition mpColmacCxA_25 : mpMap :=
  ([Lit 145805808222 10000000000; Lit 81934524 10000000000; Lit (-216169085) 10000000000; Lit (-1979167) 10000000000; Lit 7376535 10000000000; Lit 4955357 10000000000],
   [Lit 20013175767 10000000000; Lit 576617432 10000000000; Lit (-13048087) 1000000000; Lit 856818 10000000000; Lit 61076 1000000000; Lit (-3684106) 10000000000]).

(** HPWHpresets.cc:1144-1159 *)
Definition mpColmacCxA_30 : mpMap :=
  ([Lit 145824911644 10000000000; Lit 72083333 10000000000; Lit (-278055246) 10000000000; Lit (-2916667) 10000000000; Lit 8841378 10000000000; Lit 8125 10000000],
   [Lit 26996807527 10000000000; Lit 617507969 10000000000; Lit (-22096642) 1000000000; Lit 336149 10000000000; Lit 890989 10000000000; Lit (-3682431) 10000000000]).

(** The map of a preset *)
Definition mpMapOf (m : xmodel) : option mpMap :=
  match m with
  | X_ColmacCxV_5_MP => Some mpColmacCxV_5
  | X_ColmacCxA_10_MP => Some mpColmacCxA_10
  | X_ColmacCxA_15_MP => Some mpColmacCxA_15
  | X_ColmacCxA_20_MP => Some mpColmacCxA_20
  | X_ColmacCxA_25_MP => Some mpColmacCxA_25
  | X_ColmacCxA_30_MP => Some mpColmacCxA_30
  | _ => None
  end.

Section Maps.
  Context {T : Type} `{Num T}.
  (** HPWH.cc:4547-4561 with these coefficients: by outside and water temperature *)
  Definition mpFun (k : mpMap) (a c : T) : perf T :=
    match polyMP (mkpoly (nofZ 0) (map lval (fst k)) (map lval (snd k))) a c with Ok q => q | _ => mkperf (nofZ 0) (nofZ 0) (nofZ 0) end.
End Maps.
