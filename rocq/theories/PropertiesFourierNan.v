(** C145: signals with missing values in the Fourier filters.  [any_signal s f ta ax]: no empty axis in the way, rate f > 0, ta names axis
    ax; [along s i ax t]: sample t of the series through position i; [keeps ... k]: every filter asked for lets bin k pass. *)
From Coq Require Import Reals List Bool Arith ZArith Lra Lia.
From Verif Require Import PyBase Num Arr Hybrid SpecFourier Fourier FourierMore SpecFourierNan FourierNan.
Import ListNotations.
Local Open Scope R_scope.

(** C145.  Series do not mix: two signals that agree along one series, whatever they hold elsewhere, missing or infinite
    values included, are filtered to the same values along it. *)
Theorem C145_series :
  forall s s' f ta ax flg cl ch, any_signal s f ta ax -> shp s' = shp s -> 0 <= cl -> 0 <= ch -> exists r r',
  fourier_filter (VNd s) (Fin f) (Fin cl) (Fin ch) ta flg = Ok (VNd r) /\
  fourier_filter (VNd s') (Fin f) (Fin cl) (Fin ch) ta flg = Ok (VNd r') /\
  shp r = shp s /\ shp r' = shp s /\
  forall i, inb (shp s) i -> (forall t, (t < nth ax (shp s) 0)%nat -> along s i ax t = along s' i ax t) -> get r i = get r' i.
Proof. exact filter_columns. Qed.
Print Assumptions C145_series.

(** C145.  Filters that keep no frequency return zeros for every signal: missing and infinite data come back as numbers. *)
Theorem C145_nothing_kept :
  forall s f ta ax flg cl ch, any_signal s f ta ax -> 0 <= cl -> 0 <= ch ->
  (forall k, (k < nth ax (shp s) 0)%nat -> ~ keeps flg (nth ax (shp s) 0%nat) (f / INR (nth 0 (shp s) 0%nat)) cl ch k) -> exists r,
  fourier_filter (VNd s) (Fin f) (Fin cl) (Fin ch) ta flg = Ok (VNd r) /\ shp r = shp s /\
  forall i, inb (shp s) i -> get r i = Fin 0.
Proof. exact filter_nothing. Qed.
Print Assumptions C145_nothing_kept.

(** C145.  A low pass with a cutoff below one bin, rate / length, keeps nothing. *)
Theorem C145_low_pass :
  forall s f ta ax cl, any_signal s f ta ax -> 0 <= cl < f / INR (nth 0 (shp s) 0%nat) -> exists r,
  fourier_low_pass (VNd s) (Fin f) (Fin cl) ta = Ok (VNd r) /\ shp r = shp s /\ forall i, inb (shp s) i -> get r i = Fin 0.
Proof. exact low_pass_nothing. Qed.
Print Assumptions C145_low_pass.

(** C145.  A high pass with a cutoff above the highest frequency of the record keeps nothing. *)
Theorem C145_high_pass :
  forall s f ta ax ch, any_signal s f ta ax -> INR (nth ax (shp s) 0 / 2)%nat * (f / INR (nth 0 (shp s) 0%nat)) < ch -> exists r,
  fourier_high_pass (VNd s) (Fin f) (Fin ch) ta = Ok (VNd r) /\ shp r = shp s /\ forall i, inb (shp s) i -> get r i = Fin 0.
Proof. exact high_pass_nothing. Qed.
Print Assumptions C145_high_pass.

(** three samples of two series at rate 3, the second sample of the first series missing: the other series is filtered as
    if nothing were missing; a low pass at 1/2 and a high pass at 2 give 0 everywhere. *)
Example C145_example :
  let s := mkArr [3; 2]%nat (fun i => match i with [1; 0]%nat => NaN | [t; _] => Fin (INR t) | _ => Fin 0 end) in
  let s' := mkArr [3; 2]%nat (fun i => match i with [t; _] => Fin (INR t) | _ => Fin 0 end) in
  any_signal s 3 0 0 /\ along s [1; 0]%nat 0 1 = NaN /\ along s' [1; 0]%nat 0 1 = Fin 1 /\
  (forall t, (t < 3)%nat -> along s [2; 1]%nat 0 t = along s' [2; 1]%nat 0 t) /\
  (exists r, fourier_low_pass (VNd s) (Fin 3) (Fin (1 / 2)) 0 = Ok (VNd r) /\ get r [1; 0]%nat = Fin 0) /\
  (exists r, fourier_high_pass (VNd s) (Fin 3) (Fin 2) 0 = Ok (VNd r) /\ get r [1; 0]%nat = Fin 0).
Proof.
  intros s s'. assert (A : any_signal s 3 0 0) by (split; [unfold axis_of, ndim; cbn; lia|cbn; lia|cbn; lia|lra]).
  assert (I : inb (shp s) [1; 0]%nat) by (cbn; repeat constructor).
  assert (W : 3 / INR (nth 0 (shp s) 0%nat) = 1) by (cbn; field).
  split; [exact A|]. split; [reflexivity|]. split; [cbn; reflexivity|]. split.
  { intros t Ht. destruct t as [|[|[|t]]]; try lia; reflexivity. }
  split.
  - destruct (C145_low_pass s 3 0 0 (1 / 2) A) as (r & E & _ & V); [rewrite W; lra|]. exists r. split; [exact E|]. exact (V _ I).
  - destruct (C145_high_pass s 3 0 0 2 A) as (r & E & _ & V).
    { rewrite W. change (nth 0 (shp s) 0 / 2)%nat with 1%nat. cbn [INR]. lra. }
    exists r. split; [exact E|]. exact (V _ I).
Qed.
