(** Vocabulary for distributions over the height of the tank.  Nothing here refers to the model functions. *)

From Coq Require Import List Bool Reals.
From Verif Require Import Spec.
Import ListNotations.
Local Open Scope R_scope.

(** length of the part of [lo, hi] that lies inside [a, b] *)
Definition overlap (lo hi a b : R) : R := Rmax 0 (Rmin hi b - Rmax lo a).

(** heights strictly increasing, the first above [prev] *)
Fixpoint ascending (prev : R) (w : list (R * R)) : Prop :=
  match w with
  | [] => True
  | (h, _) :: r => prev < h /\ ascending h r
  end.

(** the step function of a distribution given as (height, weight) pairs, heights relative to [H]:
    weight wt between the previous height and h; integrated over the fractional heights [a, b] *)
Fixpoint massOver (H prev : R) (w : list (R * R)) (a b : R) : R :=
  match w with
  | [] => 0
  | (h, wt) :: r => wt * overlap (prev / H) (h / H) a b + massOver H h r a b
  end.

Definition topHeight (w : list (R * R)) : R := fst (last w (0, 0)).

(** a usable distribution: non-empty, heights ascending from zero, no negative weight, some weight *)
Record goodDist (w : list (R * R)) : Prop := {
  gd_ne : w <> [];
  gd_asc : ascending 0 w;
  gd_nonneg : Forall (fun p => 0 <= snd p) w;
  gd_some : Exists (fun p => 0 < snd p) w
}.

(** share of the weight that lies between the fractional heights a and b *)
Definition share (w : list (R * R)) (a b : R) : R :=
  massOver (topHeight w) 0 w a b / massOver (topHeight w) 0 w 0 1.

(** a list of node shares: one non-negative entry per node, summing to one *)
Definition shares (n : nat) (d : list R) : Prop :=
  length d = n /\ (forall x, In x d -> 0 <= x) /\ Rsum d = 1.

(** a list of m samples read as a profile over [0, 1], sample j between heights j/m and (j+1)/m;
    its integral over [a, b] ([k] is the number of the first sample in the list) *)
Fixpoint profileInt (m : R) (k : nat) (s : list R) (a b : R) : R :=
  match s with
  | [] => 0
  | x :: r => x * overlap (INR k / m) (INR (S k) / m) a b + profileInt m (S k) r a b
  end.

(** mean of the profile between the heights a and b *)
Definition meanOver (s : list R) (a b : R) : R := profileInt (INR (length s)) 0 s a b / (b - a).
