(** Instance of [Num] for binary64 floating point numbers. *)

From Coq Require Import ZArith List Bool Floats Uint63.
From Verif Require Import Num.

Local Open Scope float_scope.

(** conversion of an integer literal; exact for |z| <= 2^53 *)
Definition fofZ (z : Z) : float :=
  match z with
  | Z0 => 0
  | Zpos _ => PrimFloat.of_uint63 (Uint63.of_Z z)
  | Zneg p => - PrimFloat.of_uint63 (Uint63.of_Z (Zpos p))
  end.

(** truncation toward zero; 0 for NaN and infinities, where the C++ cast is undefined *)
Definition ftrunc (x : float) : Z :=
  match Prim2SF x with
  | S754_finite s m e =>
      let a := if Z.leb 0 e then Z.shiftl (Zpos m) e else Z.shiftr (Zpos m) (- e) in
      if s then Z.opp a else a
  | _ => 0%Z
  end.
Definition ffloor (x : float) : Z :=
  match Prim2SF x with
  | S754_finite s m e =>
      let v := if s then Zneg m else Zpos m in
      if Z.leb 0 e then Z.shiftl v e else Z.shiftr v (- e)
  | _ => 0%Z
  end.
Definition fceil (x : float) : Z := Z.opp (ffloor (- x)).

(** exp by argument reduction and a Taylor polynomial.  This is an approximation of the
    C library function used only in executable examples; no theorem relies on it. *)
Fixpoint fexp_taylor (n : nat) (k : float) (x term acc : float) : float :=
  match n with
  | O => acc
  | S n' => let term' := term * x / k in fexp_taylor n' (k + 1) x term' (acc + term')
  end.
Fixpoint fsquare (n : nat) (x : float) : float :=
  match n with O => x | S n' => fsquare n' (x * x) end.
Definition fexp (x : float) : float :=
  if 700 <? x then infinity
  else if x <? -700 then 0
  else fsquare 10 (fexp_taylor 14 1 (x / 1024) 1 1).
(** ln by Newton iteration on exp (approximation, see [fexp]) *)
Fixpoint fln_newton (n : nat) (x y : float) : float :=
  match n with
  | O => y
  | S n' => fln_newton n' x (y - 1 + x / fexp y)
  end.
Definition fln (x : float) : float :=
  if x <=? 0 then nan else fln_newton 60 x (if x <? 1 then 0 else 1).
Definition fpow (x y : float) : float :=
  if x =? 0 then (if y =? 0 then 1 else 0) else fexp (y * fln x).

Global Instance FNum : Num float := {
  nadd := PrimFloat.add; nsub := PrimFloat.sub; nmul := PrimFloat.mul; ndiv := PrimFloat.div;
  nopp := PrimFloat.opp;
  nltb := PrimFloat.ltb; nleb := PrimFloat.leb; neqb := PrimFloat.eqb;
  nofZ := fofZ; nfloor := ffloor; nceil := fceil; ntrunc := ftrunc;
  nexp := fexp; nln := fln; npow := fpow;
  ndivok := fun _ => true
}.

Example fofZ_ex : fofZ (-60) = -60. Proof. vm_compute. reflexivity. Qed.
Example ffloor_ex : (ffloor 2.5, ffloor (-2.5), fceil 2.5, ftrunc (-2.5)) = (2, -3, 3, -2)%Z.
Proof. vm_compute. reflexivity. Qed.
