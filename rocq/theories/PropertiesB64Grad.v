(** C126: gradient in binary64 (numpy float64) arithmetic, for any rounding of the arc lengths and any library cosine. *)
From Coq Require Import List Bool Arith ZArith String.
From Flocq Require Import BinarySingleNaN.
From Verif Require Import PyBase Num Arr ChunkFacts Hybrid Gradient SpecUnits NumB64 SpecRel B64Nmse B64Grad.
Import ListNotations.

(** C126.  A field with the same value everywhere: every component of the gradient is exactly zero, or NaN where neighbouring
    grid points coincide or something is not finite; never a small nonzero number. *)
Theorem C126_flat_field :
  forall (M : libm) (v : val b64) lon lat c r, v <> VOther ->
  (forall i, inb (shp (values_of v)) i -> get (values_of v) i = c) ->
  @gradient b64 (NumB M) v lon lat = Ok r ->
  Forall (fun g => forall i, inb (shp (values_of g)) i -> zero_or_nan (get (values_of g) i)) r.
Proof. exact c126_flat. Qed.
Print Assumptions C126_flat_field.

(** C126.  The field with all signs changed fails in the same way or has the gradient with all signs changed, exactly. *)
Theorem C126_sign_change :
  forall (M : libm) (v w : val b64) lon lat, same_but_values (fun x y => y = Bopp x) v w ->
  outcomes (Forall2 (val_rel opposite)) (@gradient b64 (NumB M) v lon lat) (@gradient b64 (NumB M) w lon lat).
Proof. exact c126_negation. Qed.
Print Assumptions C126_sign_change.

(** a 2-by-3 field with two latitudes and three longitudes *)
Definition b_grid (n : nat) : arr b64 := mkArr [n] (fun i => b64_ofZ (10 * Z.of_nat (hd 0 i))).
Definition b_field (f : list nat -> b64) : val b64 := VNd (mkArr [2; 3] f).
Example C126_example (M : libm) : b_field (fun _ => b64_ofZ 7) <> VOther /\
  (exists r, @gradient b64 (NumB M) (b_field (fun _ => b64_ofZ 7)) (Some (b_grid 3)) (Some (b_grid 2)) = Ok r) /\
  same_but_values (fun x y => y = Bopp x) (b_field (fun i => b64_ofZ (Z.of_nat (hd 0 i)))) (b_field (fun i => Bopp (b64_ofZ (Z.of_nat (hd 0 i))))).
Proof.
  split; [discriminate|]. split; [eexists; reflexivity|]. split; [reflexivity|]. intros i _. reflexivity.
Qed.
