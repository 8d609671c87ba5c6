(** Reference definitions for C131: the sigma of a hybrid level as rounded real numbers. *)
From Coq Require Import Reals.
From Verif Require Import SpecB64.
Local Open Scope R_scope.

(** not in /repo: hyam * p0 / ps + hybm (interpolation.py:160, 829), each operation rounded
    to the nearest double *)
Definition rsig (a b p0 ps : R) : R := rn (rn (rn (a * p0) / ps) + b).
(** no operation comes near the largest double *)
Definition sig_in_range (a b : nat -> R) (p0 ps : R) (n : nat) : Prop :=
  forall k, (k < n)%nat -> Rabs (a k * p0) <= hi900 /\ Rabs (rn (a k * p0) / ps) <= hi900 /\ Rabs (b k) <= hi900.
