(** Abstract number type of the model.

    HPWHsim computes with C++ [double].  The model is written once over the class
    [Num T]; it is instantiated with [R] (no rounding) and with [PrimFloat.float]
    (binary64).  No law is attached to the class: a theorem proved for every
    [Num T] holds for doubles including NaN and infinities. *)

From Coq Require Import ZArith List Bool Reals Lra Lia.
Import ListNotations.

Class Num (T : Type) := {
  nadd : T -> T -> T;
  nsub : T -> T -> T;
  nmul : T -> T -> T;
  ndiv : T -> T -> T;
  nopp : T -> T;
  nltb : T -> T -> bool;      (* x < y *)
  nleb : T -> T -> bool;      (* x <= y *)
  neqb : T -> T -> bool;      (* x == y *)
  nofZ : Z -> T;
  nfloor : T -> Z;            (* (int)std::floor(x) *)
  nceil : T -> Z;             (* (int)std::ceil(x) *)
  ntrunc : T -> Z;            (* static_cast<int>(x) *)
  nexp : T -> T;
  nln : T -> T;
  npow : T -> T -> T;         (* std::pow(x, y) *)
  ndivok : T -> bool          (* may the checked division divide by this value? *)
}.

Declare Scope num_scope.
Delimit Scope num_scope with num.
Notation "x + y" := (nadd x y) : num_scope.
Notation "x - y" := (nsub x y) : num_scope.
Notation "x * y" := (nmul x y) : num_scope.
Notation "x / y" := (ndiv x y) : num_scope.
Notation "- x" := (nopp x) : num_scope.
Notation "x <? y" := (nltb x y) : num_scope.
Notation "x <=? y" := (nleb x y) : num_scope.
Notation "x >? y" := (nltb y x) (only parsing) : num_scope.
Notation "x >=? y" := (nleb y x) (only parsing) : num_scope.
Notation "x =? y" := (neqb x y) : num_scope.
(** integer literal *)
Notation "# z" := (nofZ z%Z) (at level 0, z at level 0, format "# z") : num_scope.

Section Derived.
  Context {T : Type} `{Num T}.
  Local Open Scope num_scope.

  (** decimal literal n/d; for the constants used in the source both the numerator and
      the denominator are exactly representable, so the quotient rounds to the same
      double as the literal *)
  Definition dec (n d : Z) : T := nofZ n / nofZ d.

  (** std::min (a, b): returns b if b < a, else a *)
  Definition nmin (a b : T) : T := if b <? a then b else a.
  (** std::max (a, b): returns b if a < b, else a *)
  Definition nmax (a b : T) : T := if a <? b then b else a.
  (** fabs *)
  Definition nabs (a : T) : T := if a <? #0 then - a else a.
  (** a != b *)
  Definition nneqb (a b : T) : bool := negb (a =? b).
  Definition nofN (n : nat) : T := nofZ (Z.of_nat n).
End Derived.

(** * Instance: real numbers *)

Definition Rltb (x y : R) : bool := if Rlt_dec x y then true else false.
Definition Rleb (x y : R) : bool := if Rle_dec x y then true else false.
Definition Reqb' (x y : R) : bool := if Req_EM_T x y then true else false.

Definition Rfloor (x : R) : Z := Int_part x.
Definition Rceil (x : R) : Z := (- Int_part (- x))%Z.
Definition Rtrunc (x : R) : Z := if Rltb x 0 then Rceil x else Rfloor x.

(** std::pow for a non-negative base *)
Definition Rpow (x y : R) : R :=
  if Req_EM_T x 0 then (if Req_EM_T y 0 then 1%R else 0%R) else Rpower x y.

Global Instance RNum : Num R := {
  nadd := Rplus; nsub := Rminus; nmul := Rmult; ndiv := Rdiv; nopp := Ropp;
  nltb := Rltb; nleb := Rleb; neqb := Reqb';
  nofZ := IZR; nfloor := Rfloor; nceil := Rceil; ntrunc := Rtrunc;
  nexp := exp; nln := ln; npow := Rpow;
  ndivok := fun y => negb (Reqb' y 0)
}.

Ltac num_simpl :=
  cbn [nadd nsub nmul ndiv nopp nltb nleb neqb nofZ nfloor nceil ntrunc nexp nln npow ndivok RNum] in *.

Lemma Rltb_true x y : Rltb x y = true <-> (x < y)%R.
Proof. unfold Rltb; destruct (Rlt_dec x y); split; intros; auto; try discriminate; contradiction. Qed.
Lemma Rltb_false x y : Rltb x y = false <-> (y <= x)%R.
Proof. unfold Rltb; destruct (Rlt_dec x y); split; intros; auto; try discriminate; lra. Qed.
Lemma Rleb_true x y : Rleb x y = true <-> (x <= y)%R.
Proof. unfold Rleb; destruct (Rle_dec x y); split; intros; auto; try discriminate; contradiction. Qed.
Lemma Rleb_false x y : Rleb x y = false <-> (y < x)%R.
Proof. unfold Rleb; destruct (Rle_dec x y); split; intros; auto; try discriminate; lra. Qed.
Lemma Reqb'_true x y : Reqb' x y = true <-> x = y.
Proof. unfold Reqb'; destruct (Req_EM_T x y); split; intros; auto; try discriminate; contradiction. Qed.
Lemma Reqb'_false x y : Reqb' x y = false <-> x <> y.
Proof. unfold Reqb'; destruct (Req_EM_T x y); split; intros; auto; try discriminate; contradiction. Qed.

(** turn boolean comparisons over R in the context into (in)equalities *)
Ltac bcase :=
  repeat match goal with
  | H : Rltb _ _ = true |- _ => apply Rltb_true in H
  | H : Rltb _ _ = false |- _ => apply Rltb_false in H
  | H : Rleb _ _ = true |- _ => apply Rleb_true in H
  | H : Rleb _ _ = false |- _ => apply Rleb_false in H
  | H : Reqb' _ _ = true |- _ => apply Reqb'_true in H
  | H : Reqb' _ _ = false |- _ => apply Reqb'_false in H
  | H : negb _ = true |- _ => apply negb_true_iff in H
  | H : negb _ = false |- _ => apply negb_false_iff in H
  | H : (_ && _)%bool = true |- _ => apply andb_true_iff in H; destruct H
  | H : (_ || _)%bool = false |- _ => apply orb_false_iff in H; destruct H
  end.

(** case split on a boolean comparison over R in the goal *)
Ltac rcase :=
  match goal with
  | |- context [Rltb ?a ?b] => let E := fresh "E" in destruct (Rltb a b) eqn:E
  | |- context [Rleb ?a ?b] => let E := fresh "E" in destruct (Rleb a b) eqn:E
  | |- context [Reqb' ?a ?b] => let E := fresh "E" in destruct (Reqb' a b) eqn:E
  end; bcase.

Lemma nmin_R a b : nmin a b = Rmin a b.
Proof. unfold nmin; num_simpl; rcase; unfold Rmin; destruct (Rle_dec a b); lra. Qed.
Lemma nmax_R a b : nmax a b = Rmax a b.
Proof. unfold nmax; num_simpl; rcase; unfold Rmax; destruct (Rle_dec a b); lra. Qed.
Lemma nabs_R a : nabs a = Rabs a.
Proof. unfold nabs; num_simpl; rcase; unfold Rabs; destruct (Rcase_abs a); lra. Qed.

Lemma Rfloor_spec x : (IZR (Rfloor x) <= x < IZR (Rfloor x) + 1)%R.
Proof. unfold Rfloor; destruct (base_Int_part x); lra. Qed.
Lemma Rfloor_unique x z : (IZR z <= x < IZR z + 1)%R -> Rfloor x = z.
Proof.
  intros [H1 H2]. destruct (Rfloor_spec x) as [H3 H4].
  assert (IZR z < IZR (Rfloor x) + 1)%R by lra.
  assert (IZR (Rfloor x) < IZR z + 1)%R by lra.
  rewrite <- plus_IZR in *. apply lt_IZR in H. apply lt_IZR in H0. lia.
Qed.
Lemma Rceil_spec x : (IZR (Rceil x) - 1 < x <= IZR (Rceil x))%R.
Proof. unfold Rceil. rewrite opp_IZR. destruct (base_Int_part (-x)); lra. Qed.
Lemma Rceil_unique x z : (IZR z - 1 < x <= IZR z)%R -> Rceil x = z.
Proof.
  intros [H1 H2]. destruct (Rceil_spec x) as [H3 H4].
  assert (IZR z < IZR (Rceil x) + 1)%R by lra.
  assert (IZR (Rceil x) < IZR z + 1)%R by lra.
  rewrite <- plus_IZR in *. apply lt_IZR in H. apply lt_IZR in H0. lia.
Qed.
Lemma Rtrunc_nonneg x : (0 <= x)%R -> Rtrunc x = Rfloor x.
Proof. intros; unfold Rtrunc; rcase; auto; lra. Qed.
Lemma Rfloor_mono x y : (x <= y)%R -> (Rfloor x <= Rfloor y)%Z.
Proof.
  intros. destruct (Rfloor_spec x), (Rfloor_spec y).
  assert (IZR (Rfloor x) < IZR (Rfloor y) + 1)%R by lra.
  rewrite <- plus_IZR in *. apply lt_IZR in H4. lia.
Qed.

(** decide closed comparisons over R in the goal by linear arithmetic *)
Ltac rdec1 :=
  match goal with
  | |- context [Rltb ?a ?b] =>
      first [replace (Rltb a b) with true by (symmetry; apply Rltb_true; lra)
            |replace (Rltb a b) with false by (symmetry; apply Rltb_false; lra)]
  | |- context [Rleb ?a ?b] =>
      first [replace (Rleb a b) with true by (symmetry; apply Rleb_true; lra)
            |replace (Rleb a b) with false by (symmetry; apply Rleb_false; lra)]
  | |- context [Reqb' ?a ?b] =>
      first [replace (Reqb' a b) with true by (symmetry; apply Reqb'_true; lra)
            |replace (Reqb' a b) with false by (symmetry; apply Reqb'_false; lra)]
  end.
Ltac rdec := cbn; repeat (rdec1; cbn).
