(** The sizes in which the Colmac multi-pass presets are offered, from their names *)

From Coq Require Import ZArith.
From Verif Require Import ExtTable.
Local Open Scope Z_scope.

Definition sizeOfMP (m : xmodel) : option Z :=
  match m with
  | X_ColmacCxV_5_MP => Some 5 | X_ColmacCxA_10_MP => Some 10 | X_ColmacCxA_15_MP => Some 15
  | X_ColmacCxA_20_MP => Some 20 | X_ColmacCxA_25_MP => Some 25 | X_ColmacCxA_30_MP => Some 30
  | _ => None
  end.
