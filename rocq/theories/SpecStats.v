(** Specification vocabulary for statistics: weighted mean, covariance and correlation of n numbers. *)
From Coq Require Import Reals Arith.
From Verif Require Import SpecSum.
Local Open Scope R_scope.

Definition wmean (n : nat) (w x : nat -> R) : R := bigsum n (fun k => w k * x k) / bigsum n w.
Definition wcov (n : nat) (w x y : nat -> R) : R :=
  bigsum n (fun k => w k * (x k - wmean n w x) * (y k - wmean n w y)).
Definition wcorr (n : nat) (w x y : nat -> R) : R := wcov n w x y / sqrt (wcov n w x x * wcov n w y y).
(** weights under which a correlation is defined *)
Record good_weights (n : nat) (w : nat -> R) : Prop := {
  gw_nonneg : forall k, (k < n)%nat -> 0 <= w k;
  gw_total : 0 < bigsum n w }.

(** The triples (A k, B k, W k) are the numbers x k, y k with weight w k.  With skipna a triple with a missing member
    is admitted and has weight zero. *)
From Verif Require Import Num.
Definition sample (skipna : bool) (n : nat) (A B W : nat -> fl) (x y w : nat -> R) : Prop :=
  forall k, (k < n)%nat ->
    (A k = Fin (x k) /\ B k = Fin (y k) /\ W k = Fin (w k)) \/
    (skipna = true /\ (A k = NaN \/ B k = NaN \/ W k = NaN) /\ w k = 0).

(** Normalised mean squared error of y against x: mean squared difference over the variance of x, both weighted. *)
Definition mse (n : nat) (w x y : nat -> R) : R := wmean n w (fun k => (y k - x k) * (y k - x k)).
Definition variance (n : nat) (w x : nat -> R) : R := wmean n w (fun k => (x k - wmean n w x) * (x k - wmean n w x)).
Definition nmse_of (n : nat) (w x y : nat -> R) : R := mse n w x y / variance n w x.
(** Fields A (observed) and B (modelled) on n points at latitudes L: at each point either both are present and the weight is
    the cosine of the latitude in degrees, or one of them is missing and the weight is zero. *)
Definition latitude_sample (n : nat) (L A B : nat -> fl) (w x y : nat -> R) : Prop :=
  forall k, (k < n)%nat ->
    (A k = Fin (x k) /\ B k = Fin (y k) /\ exists l, L k = Fin l /\ w k = cos (l * (PI / 180))) \/
    ((A k = NaN \/ B k = NaN) /\ w k = 0).
(** v is the normalised mean squared error, in IEEE arithmetic *)
Definition nmse_result (n : nat) (w x y : nat -> R) (v : fl) : Prop :=
  (0 < variance n w x -> v = Fin (nmse_of n w x y)) /\
  (variance n w x = 0 -> 0 < mse n w x y -> v = PInf) /\
  (variance n w x = 0 -> mse n w x y = 0 -> v = NaN).
(** latitudes or longitudes l_0 .. l_(n-1): not all equal, and every step within 1e-8 + 1e-5 |first step| of the first *)
Definition evenly_spaced (n : nat) (l : nat -> R) : Prop :=
  (exists j, (S j < n)%nat /\ l (S j) <> l j) /\
  forall j, (S j < n)%nat -> Rabs ((l (S j) - l j) - (l 1%nat - l 0%nat)) <= 1 / 100000000 + 1 / 100000 * Rabs (l 1%nat - l 0%nat).
(** a field with the points of zero weight replaced by zero *)
Definition shown (w x : nat -> R) (k : nat) : R := if reqb (w k) 0 then 0 else x k.
