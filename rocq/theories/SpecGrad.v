(** Specification vocabulary for the gradient: written against the mathematics, not the code. *)
From Coq Require Import Reals List Arith String.
Import ListNotations.
Local Open Scope R_scope.

(** finite difference of a sequence of n values with unit spacing: central inside, one-sided at both ends *)
Definition slope (n : nat) (f : nat -> R) (k : nat) : R :=
  if Nat.eqb k 0 then f 1%nat - f 0%nat
  else if Nat.eqb k (n - 1) then f k - f (k - 1)%nat
  else (f (k + 1)%nat - f (k - 1)%nat) / 2.

(** the WGS84 ellipsoid: equatorial axis and flattening in metres (defining constants), polar axis *)
Definition equatorial : R := 6378137.
Definition flattening : R := 1 / 298.257223563.
Definition polar : R := equatorial * (1 - flattening).
Definition radians (deg : R) : R := deg * (PI / 180).
(** the radius documented for latitude lat in degrees *)
Definition ellipsoid_radius (lat : R) : R :=
  sqrt ((equatorial * cos (radians lat)) ^ 2 + (polar * sin (radians lat)) ^ 2).

From Verif Require Import PyBase Num Arr Hybrid.
(** value of a result (plain or labelled) at row i, column j *)
Definition cell {T} {N : Num T} (v : val T) (i j : nat) : T :=
  match v with
  | VNd a => get a [i; j]
  | VDa d | VSubDa d => get (dat d) [i; j]
  | VOther => nnan
  end.
(** finite difference of arbitrary (possibly NaN) values *)
Definition nslope {T} {N : Num T} (n : nat) (f : nat -> T) (k : nat) : T :=
  if Nat.eqb k 0 then nsub (f 1%nat) (f 0%nat)
  else if Nat.eqb k (n - 1) then nsub (f k) (f (k - 1)%nat)
  else ndiv (nsub (f (k + 1)%nat) (f (k - 1)%nat)) (ofZ 2).
(** the longitude and latitude of grid point (i,j): one array per axis, or one value per point *)
Inductive grid_of {T} (lon lat : arr T) (n m : nat) (LO LA : nat -> nat -> T) : Prop :=
| grid_1d : shp lon = [m] -> shp lat = [n] ->
    (forall i j, (i < n)%nat -> (j < m)%nat -> LO i j = get lon [j] /\ LA i j = get lat [i]) -> grid_of lon lat n m LO LA
| grid_2d : shp lon = [n; m] -> shp lat = [n; m] ->
    (forall i j, (i < n)%nat -> (j < m)%nat -> LO i j = get lon [i; j] /\ LA i j = get lat [i; j]) -> grid_of lon lat n m LO LA.
(** strictly monotone either way *)
Definition strictly_monotone (n : nat) (f : nat -> R) : Prop :=
  (forall i j, (i < j)%nat -> (j < n)%nat -> f i < f j) \/ (forall i j, (i < j)%nat -> (j < n)%nat -> f j < f i).

(** the labels of a labelled gradient: dimensions x and y, two-dimensional coordinates lon and lat holding the
    longitude and latitude of every point, nothing else *)
Definition grad_labelled {T} (lon lat : arr T) (r : da T) : Prop :=
  dims r = ["x"; "y"]%string /\ attrs r = [] /\ daname r = None /\
  exists clon clat, coords r = [("lon"%string, clon); ("lat"%string, clat)] /\
    cdims clon = ["x"; "y"]%string /\ cdims clat = ["x"; "y"]%string /\
    shp (cdat clon) = shp (dat r) /\ shp (cdat clat) = shp (dat r) /\
    ((ndim lon = 1%nat /\ ndim lat = 1%nat /\
      (forall i j, get (cdat clon) [i; j] = get lon [j]) /\ (forall i j, get (cdat clat) [i; j] = get lat [i])) \/
     (ndim lon = 2%nat /\ ndim lat = 2%nat /\ cdat clon = lon /\ cdat clat = lat)).
