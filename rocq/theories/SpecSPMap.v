(** The sizes in which the Colmac and Nyle single-pass presets are offered, from their names *)

From Coq Require Import ZArith.
From Verif Require Import ExtTable.
Local Open Scope Z_scope.

Inductive maker : Set := Colmac | Nyle.
Definition sizeOf (m : xmodel) : option (maker * Z) :=
  match m with
  | X_ColmacCxV_5_SP => Some (Colmac, 5) | X_ColmacCxA_10_SP => Some (Colmac, 10) | X_ColmacCxA_15_SP => Some (Colmac, 15)
  | X_ColmacCxA_20_SP => Some (Colmac, 20) | X_ColmacCxA_25_SP => Some (Colmac, 25) | X_ColmacCxA_30_SP => Some (Colmac, 30)
  | X_NyleC25A_SP => Some (Nyle, 25) | X_NyleC60A_SP | X_NyleC60A_C_SP => Some (Nyle, 60) | X_NyleC90A_SP | X_NyleC90A_C_SP => Some (Nyle, 90)
  | X_NyleC125A_SP | X_NyleC125A_C_SP => Some (Nyle, 125) | X_NyleC185A_SP | X_NyleC185A_C_SP => Some (Nyle, 185) | X_NyleC250A_SP | X_NyleC250A_C_SP => Some (Nyle, 250)
  | _ => None
  end.
