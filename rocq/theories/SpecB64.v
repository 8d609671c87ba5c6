(** Vocabulary of the binary64 theorems: rounding, and the exact and rounded formulas they compare. *)
From Coq Require Import Reals List Bool Arith ZArith.
From Flocq Require Import Core BinarySingleNaN.
From Verif Require Import NumB64 Arr Spec SpecSum Interp1d.
Import ListNotations.
Local Open Scope R_scope.

(** rounding to the nearest binary64 number, ties to even, no overflow *)
Definition rn (x : R) : R := round radix2 (FLT_exp (-1074) 53) ZnearestE x.
(** the reals that are binary64 numbers, overflow aside *)
Definition fmt (x : R) : Prop := generic_format radix2 (FLT_exp (-1074) 53) x.
(** half the distance between 1 and the next number: 2^-53 *)
Definition ulp1 : R := bpow radix2 (-53).
(** [x] is a finite number whose value is [r] *)
Definition is (x : b64) (r : R) : Prop := is_finite x = true /\ B2R x = r.

(** ** pressure layers *)
Definition lo900 : R := bpow radix2 (-900).
Definition hi900 : R := bpow radix2 900.
(** the midpoint of levels k-1 and k as rounded by the code *)
Definition rmid (v : list R) (k : nat) : R := rn (at_ v k + at_ v (k - 1)) / 2.
(** the midpoint above level k, and layer k of a column whose deepest layer is e, in exact arithmetic *)
Definition xmid (v : list R) (k : nat) : R := (at_ v (k - 1) + at_ v k) / 2.
Definition xlayer (v : list R) (ps top : R) (e k : nat) : R :=
  (if Nat.eqb k e then ps else xmid v (k + 1)) - (if Nat.eqb k 0 then top else xmid v k).


(** ** hybrid levels *)
(** the rounded pressure of a level: two products and a sum, each rounded *)
Definition rhyb (a b p0 ps : R) : R := rn (rn (a * p0) + rn (b * ps)).
Definition tiny : R := bpow radix2 (-1075).
(** the coefficients are the binary64 numbers a k, b k *)
Definition coeffs_are (x y : arr b64) (a b : nat -> R) (n : nat) : Prop :=
  forall k, (k < n)%nat -> is (get x [k]) (a k) /\ is (get y [k]) (b k).
(** both terms of every level's pressure are at most 2^900 *)
Definition in_range (a b : nat -> R) (p0 ps : R) (n : nat) : Prop :=
  forall k, (k < n)%nat -> Rabs (a k * p0) <= hi900 /\ Rabs (b k * ps) <= hi900.

(** what a stored pressure of level k over a surface pressure ps satisfies *)
Definition good_pressure (a b p0 ps P : R) : Prop :=
  P = rhyb a b p0 ps /\
  Rabs (P - (a * p0 + b * ps)) <= 3 * ulp1 * (Rabs (a * p0) + Rabs (b * ps)) + 3 * tiny /\
  (a = 0 -> b = 1 -> P = ps) /\ (b = 0 -> P = rn (a * p0)).
(** a column of thicknesses over interface pressures *)
Definition good_column (n : nat) (P d : nat -> R) : Prop :=
  (forall k, (k < n - 1)%nat -> 0 <= d k /\ (d k = 0 <-> P k = P (S k)) /\
     Rabs (d k - Rabs (P k - P (S k))) <= ulp1 * Rabs (P k - P (S k))) /\
  ((forall k, (k < n - 1)%nat -> P k <= P (S k)) \/ (forall k, (k < n - 1)%nat -> P (S k) <= P k) ->
   Rabs (bigsum (n - 1) d - Rabs (P (n - 1)%nat - P 0%nat)) <= ulp1 * Rabs (P (n - 1)%nat - P 0%nat)).

(** ** interpolation between two levels *)
(** the code's formula between (pa, a) and (pb, b), each operation rounded *)
Definition rblend (a b pa pb x : R) : R := rn (a + rn (rn (b - a) * rn (rn (x - pa) / rn (pb - pa)))).
(** of one sign and within a factor of two *)
Definition within2 (a b : R) : Prop := a / 2 <= b <= 2 * a \/ 2 * a <= b <= a / 2.
(** what a value r returned at x between the levels (pa, a) and (pb, b), pa < pb, satisfies *)
Definition good_value (a b pa pb x r : R) : Prop :=
  r = rblend a b pa pb x /\
  Rabs (r - (a + (b - a) * ((x - pa) / (pb - pa)))) <= 10 * ulp1 * (Rabs a + Rabs b) + tiny /\
  (exists b', Rabs (b' - b) <= 3 * ulp1 * (Rabs a + Rabs b) /\ (within2 a b -> b' = b) /\
     Rmin a b' <= r <= Rmax a b' /\ (x = pb -> r = b')) /\
  (x = pa -> r = a).
(** the coordinate the method interpolates in *)
Definition vkey (M : libm) (m : imethod) (x : b64) : b64 := match m with MLinear => x | MLog => m_ln M x end.

(** a temperature that is not NaN: a real number, or an infinity standing for anything at or beyond the end of the table *)
Definition temperature_is (x : b64) (r : R) : Prop :=
  is x r \/ (x = B754_infinity false /\ 375.16 <= r) \/ (x = B754_infinity true /\ r <= 173.16).
(** relative humidity in percent, exact, from the saturation vapour pressure E *)
Definition humidity (E w p : R) : R := Rmax 0.0001 (100 * (w * (p - 0.378 * E) / (0.622 * E))).
