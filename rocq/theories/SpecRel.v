(** Specification vocabulary for C126: fields related value by value, in double precision. *)
From Coq Require Import List Bool.
From Flocq Require Import BinarySingleNaN.
From Verif Require Import PyBase Num Arr Hybrid NumB64.
Import ListNotations.

(** two arrays of the same shape with related values *)
Definition arr_rel {T} (R : T -> T -> Prop) (a b : arr T) : Prop := shp b = shp a /\ forall i, inb (shp a) i -> R (get a i) (get b i).
(** two results of gradient of the same kind, labels included, with related values *)
Definition val_rel {T} (R : T -> T -> Prop) (v w : val T) : Prop :=
  match v, w with
  | VNd a, VNd b => arr_rel R a b
  | VDa d, VDa e => dims e = dims d /\ coords e = coords d /\ attrs e = attrs d /\ daname e = daname d /\ arr_rel R (dat d) (dat e)
  | _, _ => False
  end.
(** the same argument with other values *)
Definition same_but_values {T} (R : T -> T -> Prop) (v w : val T) : Prop :=
  match v, w with
  | VNd a, VNd b => arr_rel R a b
  | VDa d, VDa e | VSubDa d, VSubDa e => coords e = coords d /\ arr_rel R (dat d) (dat e)
  | VOther, VOther => True
  | _, _ => False
  end.

(** y is minus x: both NaN, or equal in the sense of IEEE comparison (zeros of either sign are equal) *)
Definition opposite (x y : b64) : Prop := (is_nan x = true /\ is_nan y = true) \/ Beqb y (Bopp x) = true.

(** the values of an argument or result *)
Definition values_of (v : val b64) : arr b64 := match v with VNd a => a | VDa d | VSubDa d => dat d | VOther => afull []%list B754_nan end.
