(** C145: which frequencies a combination of filters keeps, and signals of any content.  Not code of /repo. *)
From Coq Require Import Reals List Arith ZArith.
From Verif Require Import PyBase Num Arr SpecFourier Fourier.
Import ListNotations.
Local Open Scope R_scope.

(** bin k of n is kept: m cycles within each cutoff asked for, as in C44; [w] is the width of a bin *)
Definition keeps (flg : flags) (n : nat) (w cl ch : R) (k : nat) : Prop :=
  (f_low flg = true -> (INR (cycles n k) + 1) * w <= cl) /\
  (f_high flg = true -> ch <= INR (cycles n k) * w) /\
  (f_pass flg = true -> cl < (INR (cycles n k) + 1) * w /\ INR (cycles n k) * w < ch) /\
  (f_block flg = true -> ~ (cl < (INR k + 1) * w /\ INR k * w < ch) /\ ~ (cl < (INR (n - k)%nat + 1) * w /\ INR (n - k)%nat * w < ch)).
(** a signal of any content, sampled at rate f > 0, with axis [ax] named by [ta] *)
Record any_signal (s : arr fl) (f : R) (ta : Z) (ax : nat) : Prop := {
  as_axis : axis_of (ndim s) ta ax;
  as_len0 : (0 < nth 0 (shp s) 0)%nat;
  as_len : (0 < nth ax (shp s) 0)%nat;
  as_rate : 0 < f }.
(** position t of the column through i along axis ax *)
Definition along (s : arr fl) (i : list nat) (ax t : nat) : fl := get s (upd i ax t).
