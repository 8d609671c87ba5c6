(** Independent specifications used in the property theorems.  Nothing here refers to the model of
    the code; only to real numbers, lists and the number type [fl]. *)
From Coq Require Import Reals List Bool Arith ZArith Permutation.
From Verif Require Import Num Arr.
Import ListNotations.
Local Open Scope R_scope.

(** ** Lists of reals *)
Definition at_ (l : list R) (k : nat) : R := nth k l 0.
(** strictly increasing list *)
Definition increasing (l : list R) : Prop :=
  forall i j, (i < j)%nat -> (j < length l)%nat -> at_ l i < at_ l j.
(** neither NaN nor infinite *)
Definition finite (x : fl) : Prop := exists r, x = Fin r.
(** sum of the non-NaN entries *)
Fixpoint sum_finite (l : list fl) : R :=
  match l with [] => 0 | Fin r :: t => r + sum_finite t | _ :: t => sum_finite t end.

(** the n entries of an array along its last axis at position [idx] of the others *)
Definition column {T} (a : arr T) (idx : list nat) (n : nat) : list T :=
  map (fun k => get a (idx ++ [k])) (seq 0 n).

(** ** Pressure layers of a column listed from the top of the atmosphere down *)
(** upper interface of layer k: the top for k = 0, else half way to the level above *)
Definition interface (top : R) (l : list R) (k : nat) : R :=
  match k with O => top | S j => (at_ l j + at_ l k) / 2 end.
(** lower interface of layer k; the lowest layer reaches down to the surface *)
Definition lower_interface (top ps : R) (l : list R) (k : nat) : R :=
  if Nat.ltb (S k) (length l) then Rmin (interface top l (S k)) ps else ps.
(** layer k is underground when its upper interface is at or below the surface *)
Definition underground (top ps : R) (l : list R) (k : nat) : Prop :=
  (1 <= k)%nat /\ ps <= interface top l k.

(** ** Columns: level k sits at pressure [p k], k < n *)
(** levels i and j are neighbours: no other level between them *)
Definition neighbours (p : nat -> R) (n i j : nat) : Prop :=
  (i < n)%nat /\ (j < n)%nat /\ p i < p j /\ forall k, (k < n)%nat -> p k <= p i \/ p j <= p k.
(** x is above or below every level *)
Definition out_of_range (p : nat -> R) (n : nat) (x : R) : Prop :=
  (forall k, (k < n)%nat -> p k < x) \/ (forall k, (k < n)%nat -> x < p k).
(** no two levels share a pressure *)
Definition distinct_levels (p : nat -> R) (n : nat) : Prop :=
  forall j k, (j < n)%nat -> (k < n)%nat -> p j = p k -> j = k.
(** ascending list *)
Definition sorted_le (l : list R) : Prop := forall i j, (i < j < length l)%nat -> nth i l 0 <= nth j l 0.
(** ascending or descending *)
Definition one_direction (l : list R) : Prop := sorted_le l \/ sorted_le (rev l).
(** the bracket the code uses: x is above the lower level unless that is the lowest of all *)
Definition code_bracket (p : nat -> R) (n i j : nat) (x : R) : Prop :=
  neighbours p n i j /\ p i <= x <= p j /\ (p i < x \/ forall k, (k < n)%nat -> p i <= p k).
(** a + (b - a) w in floating point *)
Definition blend (v0 v1 : fl) (w : R) : fl := nadd v0 (nmul (nsub v1 v0) (Fin w)).
(** interpolated value y at level x of a column with levels p and values v; f is the vertical
    coordinate (p itself, or ln p) *)
Definition column_value (f : R -> R) (p : nat -> R) (v : nat -> fl) (n : nat) (x : R) (y : fl) : Prop :=
  (out_of_range p n x /\ y = NaN) \/
  exists i j, code_bracket p n i j x /\ y = blend (v i) (v j) ((f x - f (p i)) / (f (p j) - f (p i))).
(** requests come out in ascending (or, if the last is below the first, descending) order *)
Definition served_order (x x' : list R) : Prop :=
  Permutation x' x /\
  ((nth 0 x 0 <= last x 0 /\ sorted_le x') \/ (last x 0 < nth 0 x 0 /\ sorted_le (rev x'))).
(** pressure of level k of a hybrid column with coefficients A, B above surface pressure s *)
Definition hyb_pressure (A B : nat -> R) (p0 s : R) (k : nat) : R := A k * p0 + B k * s.

(** ** ECMWF below-ground extrapolation (IFS documentation; constants as in the code's docstrings) *)
Definition Rdry : R := 287.04.
(** standard gravity *)
Definition grav : R := 9.80616.
(** standard lapse rate, K/m *)
Definition lapse : R := 0.0065.
(** exponent of the standard atmosphere *)
Definition ec_alpha : R := lapse * Rdry / grav.
(** surface temperature from the lowest model level (temperature tb, pressure pl) *)
Definition ec_tstar (tb pl ps : R) : R := tb * (1 + ec_alpha * (ps / pl - 1)).
(** plateau temperature above 2000 m of terrain height z *)
Definition ec_plateau (tstar z : R) : R :=
  let t0 := tstar + lapse * z in
  let tpl := Rmin 298 t0 in
  if Rlt_dec 2500 z then tpl else 2 / 1000 * ((2500 - z) * t0 + (z - 2000) * tpl).
(** y of the exponential series: lapse rate times ln(lev/ps) *)
Definition ec_y (tstar phi lev ps : R) : R :=
  let z := phi / grav in
  if Rlt_dec z 2000 then ec_alpha * ln (lev / ps)
  else if Rlt_dec (ec_plateau tstar z) tstar then 0
  else Rdry * (ec_plateau tstar z - tstar) / phi * ln (lev / ps).
(** temperature extrapolated to pressure lev *)
Definition ec_temperature (tb lev pl ps phi : R) : R :=
  let t := ec_tstar tb pl ps in
  let y := ec_y t phi lev ps in
  t * (1 + y + y * y / 2 + y * y * y / 6).

(** geopotential height: adjusted surface temperature and lapse factor *)
Definition ec_gp_alpha (tstar z phi : R) : R :=
  if Rlt_dec 290.5 (tstar + lapse * z)
  then (if Rle_dec tstar 290.5 then Rdry / phi * (290.5 - tstar) else 0)
  else ec_alpha.
(** adjusted surface temperature for heights *)
Definition ec_gp_tstar (tstar z : R) : R :=
  let t := if Rlt_dec 290.5 (tstar + lapse * z)
           then (if Rlt_dec 290.5 tstar then (290.5 + tstar) / 2 else tstar) else tstar in
  if Rlt_dec t 255 then (t + 255) / 2 else t.
(** geopotential height extrapolated to pressure lev *)
Definition ec_height (tb lev pl ps phi : R) : R :=
  let t := ec_tstar tb pl ps in
  let z := phi / grav in
  let y := ec_gp_alpha t z phi * ln (lev / ps) in
  z - Rdry * ec_gp_tstar t z / grav * ln (lev / ps) * (1 + y / 2 + y * y / 6).

(** sigma of hybrid level k in a column with surface pressure s *)
Definition hyb_sigma (A B : nat -> R) (p0 s : R) (k : nat) : R := A k * p0 / s + B k.

(** ** Linear and bilinear interpolation *)
Definition lin (x0 x1 v0 v1 x : R) : R := v0 + (v1 - v0) * ((x - x0) / (x1 - x0)).
(** the same in floating point, as scipy evaluates it: slope * (x - x0) + v0 *)
Definition line_through (x0 x1 : R) (v0 v1 : fl) (x : R) : fl :=
  nadd (nmul (ndiv (nsub v1 v0) (Fin (x1 - x0))) (Fin (x - x0))) v0.
(** value at (y, x) of the surface over the cell [y0, y1] x [x0, x1] *)
Definition bilin (y0 y1 x0 x1 v00 v01 v10 v11 y x : R) : R :=
  lin y0 y1 (lin x0 x1 v00 v01 x) (lin x0 x1 v10 v11 x) y.
(** smallest of four *)
Definition min4 (a b c d : R) : R := Rmin (Rmin a b) (Rmin c d).
(** largest of four *)
Definition max4 (a b c d : R) : R := Rmax (Rmax a b) (Rmax c d).
