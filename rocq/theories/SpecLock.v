(** What the lock-out of a heat source may change *)

From Coq Require Import List.
From Verif Require Import Types.

(** two states of a unit that differ at most in the locks of heat sources *)
Definition locksOnly {T} (w w' : hpwh T) : Prop :=
  w' = set_w_hs (w_hs w') w /\ Forall2 (fun h h' => h' = set_h_locked (h_locked h') h) (w_hs w) (w_hs w').
