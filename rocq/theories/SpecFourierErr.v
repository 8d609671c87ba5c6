(** C142: which calls of the Fourier filters can be answered. *)
From Coq Require Import Reals List Arith ZArith.
From Verif Require Import PyBase Num Arr SpecFourier.
Import ListNotations.
Local Open Scope R_scope.

(** a number with a value: neither infinite nor NaN *)
Definition finite (x : fl) : Prop := exists r, x = Fin r.
(** the Python index [ta] names no axis of an array of rank [r] *)
Definition no_axis (r : nat) (ta : Z) : Prop := (ta < - Z.of_nat r \/ Z.of_nat r <= ta)%Z.
(** a signal and a filtered axis with at least one sample, and a first axis with at least one entry *)
Definition has_samples (s : arr fl) (ta : Z) : Prop :=
  (0 < nth 0 (shp s) 0)%nat /\ exists ax, axis_of (ndim s) ta ax /\ (0 < nth ax (shp s) 0)%nat.
