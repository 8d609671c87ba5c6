(** C142: which calls of the Fourier filters are answered.  [has_samples s ta]: axis 0 and the axis named by ta are not
    empty; [no_axis r ta]: ta names no axis of an array of rank r; [finite]: neither infinite nor NaN. *)
From Coq Require Import Reals List Bool Arith ZArith Lra Lia.
From Verif Require Import PyBase Num Arr Hybrid SpecFourier Fourier SpecFourierErr FourierErr.
Import ListNotations.
Local Open Scope R_scope.

(** C142.  The kinds of calls that fail, and the exception each of them raises. *)
Theorem C142_failures :
  forall (s : arr fl) (f cl ch : fl) (ta : Z) (flg : flags),
  (shp s = [] -> fourier_filter (VNd s) f cl ch ta flg = Err TypeError) /\
  (forall sh, shp s = 0%nat :: sh -> fourier_filter (VNd s) f cl ch ta flg = Err ZeroDivisionError) /\
  ((0 < nth 0 (shp s) 0)%nat -> no_axis (ndim s) ta -> fourier_filter (VNd s) f cl ch ta flg = Err ValueError) /\
  (forall ax, (0 < nth 0 (shp s) 0)%nat -> axis_of (ndim s) ta ax -> nth ax (shp s) 0%nat = 0%nat ->
     fourier_filter (VNd s) f cl ch ta flg = Err ValueError) /\
  (has_samples s ta ->
     (f = Fin 0 -> fourier_filter (VNd s) f cl ch ta flg = Err ZeroDivisionError) /\
     (f = NaN \/ (f = PInf \/ f = NInf) /\ (~ finite cl \/ ~ finite ch) -> fourier_filter (VNd s) f cl ch ta flg = Err ValueError) /\
     (f <> Fin 0 -> finite f ->
        (cl = NaN -> fourier_filter (VNd s) f cl ch ta flg = Err ValueError) /\
        (cl = PInf \/ cl = NInf -> fourier_filter (VNd s) f cl ch ta flg = Err OverflowError) /\
        (finite cl -> ch = NaN -> fourier_filter (VNd s) f cl ch ta flg = Err ValueError) /\
        (finite cl -> ch = PInf \/ ch = NInf -> fourier_filter (VNd s) f cl ch ta flg = Err OverflowError))).
Proof. exact filter_fails. Qed.
Print Assumptions C142_failures.

(** C142.  Every other call is answered: the sampling rate must be neither zero nor NaN and both cutoffs finite, whatever
    the signal holds, whatever the signs of rate and cutoffs, and also when the filters asked for use neither cutoff. *)
Theorem C142_answered :
  forall (s : arr fl) (f cl ch : fl) (ta : Z) (flg : flags),
  (exists r, fourier_filter (VNd s) f cl ch ta flg = Ok r) <->
  has_samples s ta /\ f <> Fin 0 /\ f <> NaN /\ finite cl /\ finite ch.
Proof. exact filter_works. Qed.
Print Assumptions C142_answered.

(** C142.  A labelled signal fails as its plain array does. *)
Theorem C142_labelled :
  forall d (f cl ch : fl) ta flg e,
  fourier_filter (VNd (dat d)) f cl ch ta flg = Err e ->
  fourier_filter (VDa d) f cl ch ta flg = Err e /\ fourier_filter (VSubDa d) f cl ch ta flg = Err e.
Proof. exact filter_labels_fail. Qed.
Print Assumptions C142_labelled.

(** C142.  The four shorthands need exactly the cutoffs they are given to be finite. *)
Theorem C142_shorthands :
  forall (s : arr fl) f c c' ta, has_samples s ta -> f <> Fin 0 -> f <> NaN ->
  ((exists r, fourier_low_pass (VNd s) f c ta = Ok r) <-> finite c) /\
  ((exists r, fourier_high_pass (VNd s) f c ta = Ok r) <-> finite c) /\
  ((exists r, fourier_band_pass (VNd s) f c c' ta = Ok r) <-> finite c /\ finite c') /\
  ((exists r, fourier_band_block (VNd s) f c c' ta = Ok r) <-> finite c /\ finite c').
Proof. exact shorthands_work. Qed.
Print Assumptions C142_shorthands.

(** a signal of two rows of three values, one of them missing: axes 0, 1, -1 and -2 can be filtered, axis 2 cannot; with
    the rows empty only axis 0 can. *)
Example C142_example :
  let s := mkArr [2; 3]%nat (fun i => match i with [0; 0]%nat => NaN | _ => Fin 1 end) in
  let e := mkArr [2; 0]%nat (fun _ => Fin 1) in
  has_samples s (-1) /\ has_samples s (-2) /\ has_samples s 1 /\ no_axis (ndim s) 2 /\ no_axis (ndim s) (-3) /\
  has_samples e 0 /\ axis_of (ndim e) 1 1 /\ nth 1 (shp e) 0%nat = 0%nat /\ ~ has_samples e 1.
Proof.
  cbn. unfold has_samples, no_axis, axis_of. cbn. repeat split; try lia.
  - exists 1%nat. cbn. lia.
  - exists 0%nat. cbn. lia.
  - exists 1%nat. cbn. lia.
  - exists 0%nat. cbn. lia.
  - intros [_ (ax & [A B] & C)]. assert (ax = 1%nat) by lia. subst. cbn in C. lia.
Qed.
