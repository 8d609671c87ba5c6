(** Terms for the statements of C147 (single-formula meteorology functions in double precision).  Not code of /repo. *)
From Coq Require Import Reals List.
From Flocq Require Import Core.
From Verif Require Import PyBase Num NumB64 Arr XrFacts SpecB64 Hybrid Meteo CellFacts.
Local Open Scope R_scope.

(** the exponential of numbers from 0 to 20 is a number from 1 to 2^40 *)
Definition exp_ok (M : libm) : Prop := forall x r, is x r -> 0 <= r <= 20 -> exists v, is (m_exp M x) v /\ 1 <= v <= bpow radix2 40.
(** three arguments of one kind and shape; DataArrays with the same dimensions and labels *)
Definition alike {T} {N : Num T} (t w p : inp T) : Prop :=
  kind_of w = kind_of t /\ kind_of p = kind_of t /\
  match t, w, p with
  | IDa t, IDa w, IDa p => same_frame t p /\ same_frame w t /\ same_frame w p /\ coords_fit t
  | _, _, _ => shp (as_arr w) = shp (as_arr t) /\ shp (as_arr p) = shp (as_arr t)
  end.
