(** Specification vocabulary for Fourier filters: spectra of real sequences and absolute frequencies. *)
From Coq Require Import Reals List Arith ZArith.
From Verif Require Import PyBase Num Arr SpecSum.
Local Open Scope R_scope.

Definition turn (n k t : nat) : R := 2 * PI * INR (k * t) / INR n.
(** real and imaginary part of bin k of the discrete Fourier transform of x_0 .. x_(n-1) *)
Definition spec_re (n : nat) (x : nat -> R) (k : nat) : R := bigsum n (fun t => x t * cos (turn n k t)).
Definition spec_im (n : nat) (x : nat -> R) (k : nat) : R := bigsum n (fun t => - (x t * sin (turn n k t))).

(** bins k and n-k carry the same frequency: the number of cycles over the record *)
Definition cycles (n k : nat) : nat := Nat.min k (n - k).

(** column through position i along axis ax of an array of values F *)
Definition column (F : list nat -> R) (i : list nat) (ax : nat) (t : nat) : R := F (upd i ax t).

(** a wave with k cycles over the record *)
Definition wave (n k : nat) (a b : R) (t : nat) : R := a * cos (turn n k t) + b * sin (turn n k t).

(** y is x with the frequencies outside [Keep] removed: the spectrum of y is that of x on the bins in [Keep]
    and zero on the others.  (A sequence is determined by its spectrum, theorem C43_spectrum_determines.) *)
Definition same_bin (n : nat) (x y : nat -> R) (k : nat) : Prop := spec_re n y k = spec_re n x k /\ spec_im n y k = spec_im n x k.
Definition no_bin (n : nat) (y : nat -> R) (k : nat) : Prop := spec_re n y k = 0 /\ spec_im n y k = 0.
Definition filters (n : nat) (Keep : nat -> Prop) (x y : nat -> R) : Prop :=
  forall k, (k < n)%nat -> (Keep k -> same_bin n x y k) /\ (~ Keep k -> no_bin n y k).

(** the array s holds the finite values F *)
Definition holds (s : arr fl) (F : list nat -> R) : Prop := forall i, inb (shp s) i -> get s i = Fin (F i).
(** [ax] is the axis meant by the Python index [ta] in an array of rank [r] *)
Definition axis_of (r : nat) (ta : Z) (ax : nat) : Prop :=
  (ax < r)%nat /\ (ta = Z.of_nat ax \/ ta = Z.of_nat ax - Z.of_nat r)%Z.
(** width in frequency of a bin when [len] samples are taken at rate [f] *)
Definition width (f : R) (len : nat) : R := f / INR len.

(** a non-empty array of finite values F, sampled at rate f > 0, with axis [ax] named by [ta] *)
Record sampled (s : arr fl) (F : list nat -> R) (f : R) (ta : Z) (ax : nat) : Prop := {
  sm_vals : holds s F;
  sm_axis : axis_of (ndim s) ta ax;
  sm_len0 : (0 < nth 0 (shp s) 0)%nat;
  sm_len : (0 < nth ax (shp s) 0)%nat;
  sm_rate : 0 < f }.
