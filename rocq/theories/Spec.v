(** Vocabulary used to state the properties.  Nothing here refers to the model functions. *)

From Coq Require Import ZArith List Bool Reals Lra Lia.
Import ListNotations.
Local Open Scope R_scope.

(** sum of a list *)
Definition Rsum (l : list R) : R := fold_right Rplus 0 l.

(** temperature of node i (nodes are numbered from the bottom) *)
Definition node (Ts : list R) (i : nat) : R := nth i Ts 0.

(** every node is at least as warm as the node below it *)
Definition stratified (Ts : list R) : Prop :=
  forall i, (S i < length Ts)%nat -> node Ts i <= node Ts (S i).

(** the same from node [lo] upward *)
Definition stratified_from (lo : nat) (Ts : list R) : Prop :=
  forall i, (lo <= i)%nat -> (S i < length Ts)%nat -> node Ts i <= node Ts (S i).

(** all temperatures within [lo, hi] *)
Definition within (lo hi : R) (Ts : list R) : Prop := forall x, In x Ts -> lo <= x <= hi.

(** heat (in units of node heat capacity) stored in the lowest p nodes *)
Definition below (Ts : list R) (p : nat) : R := Rsum (firstn p Ts).

(** [Ts] is the least re-ordering of heat that makes [Ts0] stratified: it has the same total heat, heat
    has only moved upward, and none has crossed a level where [Ts] has a strict step *)
Record isotonic_of (Ts0 Ts : list R) : Prop := {
  io_len : length Ts = length Ts0;
  io_strat : stratified Ts;
  io_sum : Rsum Ts = Rsum Ts0;
  io_up : forall p, (p <= length Ts0)%nat -> below Ts p <= below Ts0 p;
  io_cut : forall p, (0 < p < length Ts0)%nat -> node Ts (p - 1) < node Ts p -> below Ts p = below Ts0 p
}.

(** water filling: every node from [nd] up is raised to at least level [L]; the others are unchanged *)
Definition filled (nd : nat) (L : R) (Ts Ts' : list R) : Prop :=
  length Ts' = length Ts /\
  forall j, (j < length Ts)%nat -> node Ts' j = if Nat.leb nd j then Rmax (node Ts j) L else node Ts j.
