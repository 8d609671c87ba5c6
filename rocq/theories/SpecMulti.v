(** Specification vocabulary for nearest-neighbour interpolation on a grid. *)
From Coq Require Import Reals List Bool Arith ZArith.
From Verif Require Import PyBase Num.
Import ListNotations.
Local Open Scope R_scope.

(** index [i] of the point of p 0 .. p (n-1) nearest to x; of two equally near ones the lower *)
Definition nearest (p : nat -> R) (n : nat) (x : R) (i : nat) : Prop :=
  (i < n)%nat /\ forall k, (k < n)%nat -> Rabs (x - p i) <= Rabs (x - p k) /\ (p k < p i -> Rabs (x - p i) < Rabs (x - p k)).

(** what a value becomes on its way through: NaN and the missing value are the missing value *)
Definition missing_of (missing : option fl) (v : fl) : fl :=
  match missing with Some m => if isnan v then m else if neqb v m then m else v | None => v end.

(** nearest grid longitude on the circle: among all copies shifted by multiples of 360 *)
Definition nearest_on_circle (p : nat -> R) (n : nat) (x : R) (c : nat) : Prop :=
  (c < n)%nat /\ exists t : Z, forall k (u : Z), (k < n)%nat ->
    Rabs (x - (p c + 360 * IZR t)) <= Rabs (x - (p k + 360 * IZR u)) /\
    (p k + 360 * IZR u < p c + 360 * IZR t -> Rabs (x - (p c + 360 * IZR t)) < Rabs (x - (p k + 360 * IZR u))).
