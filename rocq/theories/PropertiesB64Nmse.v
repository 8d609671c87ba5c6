(** C116: nmse in binary64 (numpy float64) arithmetic. *)
From Coq Require Import Reals List Bool Arith ZArith Lra Lia String.
From Flocq Require Import Core BinarySingleNaN.
From Verif Require Import PyBase PyFacts Num Arr NumB64 SpecB64 B64Facts Nmse B64Nmse B64NmseEx B64Cos.
Import ListNotations.
Local Open Scope R_scope.

(** C116.  Double precision, DataArrays or Datasets of any shape and any values, infinities and NaN included: if the
    recognised latitude lies between the poles and the cosine is correctly rounded, no value of an accepted call is
    negative.  [latitude], [cos_rounded]: B64Cos.v; [each_value], [nonneg_or_nan]: B64Nmse.v. *)
Theorem C116_never_negative :
  forall (M : libm) cf_lat cf_lon (o m : nin b64) r,
  cos_rounded M -> @nmse b64 (NumB M) cf_lat cf_lon o m = Ok r ->
  (forall name lat i, In name (cf_lat o) -> slookup name (ncoords o) = Some lat -> latitude (get (cdat lat) i)) ->
  each_value r nonneg_or_nan.
Proof. exact c116_latitudes. Qed.
Print Assumptions C116_never_negative.

(** C116.  Whatever the library's cosine, the latitudes and the rounding, a field compared with itself scores exactly zero, or
    NaN where the score is undefined *)
Theorem C116_identical_fields :
  forall (M : libm) cf_lat cf_lon (o : nin b64) r,
  @nmse b64 (NumB M) cf_lat cf_lon o o = Ok r ->
  match o with NDs s => NoDup (map fst (ds_vars s)) | _ => True end ->
  each_value r zero_or_nan.
Proof. exact c116_same. Qed.
Print Assumptions C116_identical_fields.

(** C116's hypotheses are met: two latitudes, three longitudes; the field against itself scores a zero, not NaN *)
Example C116_example :
  cos_rounded true_cos /\ (exists r, tiny_nmse true_cos ramp ramp = Ok (ODa r) /\ Beqb (get (dat r) []) (B754_zero false) = true) /\
  forall name lat i, In name ["lat"%string] -> slookup name (ncoords (NDa (tiny_field ramp))) = Some lat -> latitude (get (cdat lat) i).
Proof.
  split; [apply true_cos_rounded|]. split; [apply c116_itself, unit_cos_rounded, true_cos_rounded|].
  intros name lat i [<-|[]] H. cbn in H. injection H as <-. unfold latitude, tiny_lat, cdat, vec, get.
  destruct (hd 0%nat i) as [|[|[|k]]]; [right; exists 0; split; [split; reflexivity|lra]| |left; reflexivity|left; reflexivity].
  right. destruct (step40_is) as [F V]. exists (bpow radix2 (-40)). split; [split; assumption|]. change (bpow radix2 (-40)) with (/ 1099511627776). lra.
Qed.

(** In exact arithmetic a constant observed field has variance zero and the score of a different model divides by zero (C53).  In double
    precision the mean of six times 0.1 is not 0.1, the variance is not zero, and the score is a finite number above 10^30 *)
Theorem C116_constant_observation_refuted :
  forall M : libm, cos_rounded M -> exists r,
  tiny_nmse M flat01 flat02 = Ok (ODa r) /\ is_finite (get (dat r) []) = true /\ Bltb (b64_ofZ (10 ^ 30)) (get (dat r) []) = true.
Proof. intros M H. apply c116_constant, unit_cos_rounded, H. Qed.
Print Assumptions C116_constant_observation_refuted.
