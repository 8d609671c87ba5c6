(** Superposition, order and distance of interpolated values, used by C128. *)
From Coq Require Import Reals.
From Verif Require Import Num.
Local Open Scope R_scope.

(** all three missing, or the third is c1 times the first plus c2 times the second *)
Definition combine3 (c1 c2 : R) (y1 y2 y3 : fl) : Prop :=
  (y1 = NaN /\ y2 = NaN /\ y3 = NaN) \/ exists r1 r2, y1 = Fin r1 /\ y2 = Fin r2 /\ y3 = Fin (c1 * r1 + c2 * r2).
(** both missing, or the first is at most the second *)
Definition below (y1 y2 : fl) : Prop := (y1 = NaN /\ y2 = NaN) \/ exists r1 r2, y1 = Fin r1 /\ y2 = Fin r2 /\ r1 <= r2.
(** both missing, or at most e apart *)
Definition within (e : R) (y1 y2 : fl) : Prop := (y1 = NaN /\ y2 = NaN) \/ exists r1 r2, y1 = Fin r1 /\ y2 = Fin r2 /\ Rabs (r1 - r2) <= e.
(** interpolation of the values V, W and U on the points selected by [at_] gives y1, y2 and y3: sums, order and distance carry over *)
Definition superposes {I} (at_ : I -> Prop) (V W U : I -> R) (y1 y2 y3 : fl) : Prop :=
  (forall c1 c2, (forall k, at_ k -> U k = c1 * V k + c2 * W k) -> combine3 c1 c2 y1 y2 y3) /\
  ((forall k, at_ k -> V k <= W k) -> below y1 y2) /\
  (forall e, (forall k, at_ k -> Rabs (V k - W k) <= e) -> within e y1 y2).
