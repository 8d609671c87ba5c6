(** C43-C47, C77: Fourier filters.  [sampled s F f ta ax] says that the array s holds the finite values F, is not
    empty along axis 0 and the filtered axis [ax] (named by the Python index [ta]), and that the sampling rate f
    is positive.  n is the length of the filtered axis; w is the bin width the code works with. *)
From Coq Require Import Reals List Bool Arith ZArith Lra Lia String.
From Verif Require Import PyBase Num NumFacts Arr ArrFacts Hybrid SpecSum SumFacts SpecFourier Fourier FourierDft FourierFacts FourierApi FourierMore FourierEnd.
Import ListNotations.
Local Open Scope R_scope.

(** C43.  Every combination of filters acts on each column as a set of kept bins that contains k exactly when it
    contains n-k: kept bins come out exactly as they went in, all others as zero, so taking the real part of the
    inverse transform loses nothing. *)
Theorem C43_bins_kept_or_removed_in_pairs :
  forall (s : arr fl) (F : list nat -> R) (f : R) (ta : Z) (ax : nat), sampled s F f ta ax ->
  let n := nth ax (shp s) 0%nat in let w := width f (nth 0%nat (shp s) 0%nat) in
  forall cl ch fl,
  0 <= cl -> 0 <= ch -> exists r G (Keep : nat -> Prop),
    fourier_filter (VNd s) (Fin f) (Fin cl) (Fin ch) ta fl = Ok (VNd r) /\ shp r = shp s /\ holds r G /\
    (forall k, (0 < k < n)%nat -> (Keep k <-> Keep (n - k)%nat)) /\
    forall i, inb (shp s) i -> filters n Keep (column F i ax) (column G i ax).
Proof. exact filter_pairs. Qed.
Print Assumptions C43_bins_kept_or_removed_in_pairs.


(** C43.  A sequence is determined by its spectrum (so the statements about spectra fix the filtered values). *)
Theorem C43_spectrum_determines :
  forall n x y,
  (forall k, (k < n)%nat -> same_bin n x y k) -> forall t, (t < n)%nat -> x t = y t.
Proof. exact spectrum_determines. Qed.
Print Assumptions C43_spectrum_determines.


(** C43.  The kept set and the input determine the output. *)
Theorem C43_filtered_values_determined :
  forall n Keep x y y',
  filters n Keep x y -> filters n Keep x y' -> forall t, (t < n)%nat -> y t = y' t.
Proof. exact filters_determined. Qed.
Print Assumptions C43_filtered_values_determined.

(** a 3-by-4 array filtered along axis 1 *)
Definition ex_arr (F : list nat -> R) (a b : nat) : arr fl := mkArr [a; b] (fun i => Fin (F i)).
Lemma ex_sampled F a b f : (0 < a)%nat -> (0 < b)%nat -> 0 < f -> sampled (ex_arr F a b) F f (-1) 1.
Proof.
  intros. split; cbn; auto.
  - intros i Hi. reflexivity.
  - split; [cbn; lia|]. right. reflexivity.
Qed.
Lemma ex_inb a b i j : (i < a)%nat -> (j < b)%nat -> inb [a; b] [i; j].
Proof. intros. apply inb_cons. split; [auto|]. apply inb_cons. split; [auto|]. apply inb_nil. Qed.
Example C43_example F : sampled (ex_arr F 3 4) F 12 (-1) 1.
Proof. apply ex_sampled; try lia; lra. Qed.


(** C44.  low_pass keeps exactly the frequencies whose bin lies entirely at or below the cutoff. *)
Theorem C44_low_pass_keeps :
  forall (s : arr fl) (F : list nat -> R) (f : R) (ta : Z) (ax : nat), sampled s F f ta ax ->
  let n := nth ax (shp s) 0%nat in let w := width f (nth 0%nat (shp s) 0%nat) in
  forall cl,
  0 <= cl -> exists r G,
    fourier_low_pass (VNd s) (Fin f) (Fin cl) ta = Ok (VNd r) /\ shp r = shp s /\ holds r G /\
    forall i, inb (shp s) i -> filters n (fun k => (INR (cycles n k) + 1) * w <= cl) (column F i ax) (column G i ax).
Proof. exact low_pass_spec. Qed.
Print Assumptions C44_low_pass_keeps.


(** C44.  high_pass keeps exactly the frequencies at or above the cutoff. *)
Theorem C44_high_pass_keeps :
  forall (s : arr fl) (F : list nat -> R) (f : R) (ta : Z) (ax : nat), sampled s F f ta ax ->
  let n := nth ax (shp s) 0%nat in let w := width f (nth 0%nat (shp s) 0%nat) in
  forall ch,
  0 <= ch -> exists r G,
    fourier_high_pass (VNd s) (Fin f) (Fin ch) ta = Ok (VNd r) /\ shp r = shp s /\ holds r G /\
    forall i, inb (shp s) i -> filters n (fun k => ch <= INR (cycles n k) * w) (column F i ax) (column G i ax).
Proof. exact high_pass_spec. Qed.
Print Assumptions C44_high_pass_keeps.


(** C44.  band_pass keeps exactly the frequencies below the high cutoff whose bin reaches above the low cutoff. *)
Theorem C44_band_pass_keeps :
  forall (s : arr fl) (F : list nat -> R) (f : R) (ta : Z) (ax : nat), sampled s F f ta ax ->
  let n := nth ax (shp s) 0%nat in let w := width f (nth 0%nat (shp s) 0%nat) in
  forall cl ch,
  0 <= cl -> 0 <= ch -> exists r G,
    fourier_band_pass (VNd s) (Fin f) (Fin cl) (Fin ch) ta = Ok (VNd r) /\ shp r = shp s /\ holds r G /\
    forall i, inb (shp s) i -> filters n (fun k => cl < (INR (cycles n k) + 1) * w /\ INR (cycles n k) * w < ch) (column F i ax) (column G i ax).
Proof. exact band_pass_spec. Qed.
Print Assumptions C44_band_pass_keeps.


(** C44.  band_block removes exactly those, for a high cutoff within the Nyquist range. *)
Theorem C44_band_block_keeps :
  forall (s : arr fl) (F : list nat -> R) (f : R) (ta : Z) (ax : nat), sampled s F f ta ax ->
  let n := nth ax (shp s) 0%nat in let w := width f (nth 0%nat (shp s) 0%nat) in
  forall cl ch,
  0 <= cl -> 0 <= ch -> ch <= INR n / 2 * w -> exists r G,
    fourier_band_block (VNd s) (Fin f) (Fin cl) (Fin ch) ta = Ok (VNd r) /\ shp r = shp s /\ holds r G /\
    forall i, inb (shp s) i -> filters n (fun k => ~ (cl < (INR (cycles n k) + 1) * w /\ INR (cycles n k) * w < ch)) (column F i ax) (column G i ax).
Proof. exact band_block_spec. Qed.
Print Assumptions C44_band_block_keeps.


(** C44.  band_block for arbitrary cutoffs: positive and negative frequencies are treated as the band [k, n-k). *)
Theorem C44_band_block_beyond_nyquist :
  forall (s : arr fl) (F : list nat -> R) (f : R) (ta : Z) (ax : nat), sampled s F f ta ax ->
  let n := nth ax (shp s) 0%nat in let w := width f (nth 0%nat (shp s) 0%nat) in
  forall cl ch,
  0 <= cl -> 0 <= ch -> exists r G,
    fourier_band_block (VNd s) (Fin f) (Fin cl) (Fin ch) ta = Ok (VNd r) /\ shp r = shp s /\ holds r G /\
    forall i, inb (shp s) i -> filters n (fun k => ~ (cl < (INR k + 1) * w /\ INR k * w < ch) /\
                                                   ~ (cl < (INR (n - k) + 1) * w /\ INR (n - k) * w < ch)) (column F i ax) (column G i ax).
Proof. exact band_block_any. Qed.
Print Assumptions C44_band_block_beyond_nyquist.


(** C44.  Several flags at once keep the intersection of what each keeps. *)
Theorem C44_flags_combine :
  forall (s : arr fl) (F : list nat -> R) (f : R) (ta : Z) (ax : nat), sampled s F f ta ax ->
  let n := nth ax (shp s) 0%nat in let w := width f (nth 0%nat (shp s) 0%nat) in
  forall cl ch fl,
  0 <= cl -> 0 <= ch -> exists r G,
    fourier_filter (VNd s) (Fin f) (Fin cl) (Fin ch) ta fl = Ok (VNd r) /\ shp r = shp s /\ holds r G /\
    forall i, inb (shp s) i -> filters n (fun k =>
      (f_low fl = true -> ((INR (cycles n k) + 1) * w <= cl)) /\ (f_high fl = true -> ch <= INR (cycles n k) * w) /\ (f_pass fl = true -> cl < (INR (cycles n k) + 1) * w /\ INR (cycles n k) * w < ch) /\
      (f_block fl = true -> ~ (cl < (INR k + 1) * w /\ INR k * w < ch) /\ ~ (cl < (INR (n - k) + 1) * w /\ INR (n - k) * w < ch))) (column F i ax) (column G i ax).
Proof. exact filter_flags. Qed.
Print Assumptions C44_flags_combine.

(** 12 samples at rate 12, bin width 1: a low-pass at 2.5 keeps the mean and one cycle per record *)
Example C44_example : forall k, (k < 12)%nat -> ((INR (cycles 12 k) + 1) * width 12 12 <= 5 / 2 <-> (k = 0 \/ k = 1 \/ k = 11)%nat).
Proof.
  intros k Hk. unfold width. assert (E : INR 12 = 12) by (cbn; lra). rewrite E. replace (12 / 12) with 1 by lra.
  do 12 (destruct k as [|k]; [unfold cycles; cbn [Nat.min Nat.sub INR]; split; [intros; (lia || (exfalso; lra))|intros; (lra || (exfalso; lia))]|]). lia.
Qed.


(** C45.  Every filter is linear in the signal. *)
Theorem C45_linear :
  forall s1 s2 s3 F1 F2 F3 f ta ax a b cl ch fl,
  sampled s1 F1 f ta ax -> sampled s2 F2 f ta ax -> sampled s3 F3 f ta ax -> shp s2 = shp s1 -> shp s3 = shp s1 ->
  (forall i, inb (shp s1) i -> F3 i = a * F1 i + b * F2 i) -> 0 <= cl -> 0 <= ch -> exists r1 r2 r3 G1 G2 G3,
  fourier_filter (VNd s1) (Fin f) (Fin cl) (Fin ch) ta fl = Ok (VNd r1) /\ holds r1 G1 /\
  fourier_filter (VNd s2) (Fin f) (Fin cl) (Fin ch) ta fl = Ok (VNd r2) /\ holds r2 G2 /\
  fourier_filter (VNd s3) (Fin f) (Fin cl) (Fin ch) ta fl = Ok (VNd r3) /\ holds r3 G3 /\
  shp r1 = shp s1 /\ shp r2 = shp s1 /\ shp r3 = shp s1 /\
  forall i, inb (shp s1) i -> G3 i = a * G1 i + b * G2 i.
Proof. exact filter_linear. Qed.
Print Assumptions C45_linear.


(** C45.  Filtering twice is filtering once. *)
Theorem C45_idempotent :
  forall (s : arr fl) (F : list nat -> R) (f : R) (ta : Z) (ax : nat), sampled s F f ta ax ->
  let n := nth ax (shp s) 0%nat in let w := width f (nth 0%nat (shp s) 0%nat) in
  forall cl ch fl,
  0 <= cl -> 0 <= ch -> exists r r' G,
    fourier_filter (VNd s) (Fin f) (Fin cl) (Fin ch) ta fl = Ok (VNd r) /\
    fourier_filter (VNd r) (Fin f) (Fin cl) (Fin ch) ta fl = Ok (VNd r') /\ shp r' = shp r /\ holds r G /\ holds r' G.
Proof. exact filter_idem. Qed.
Print Assumptions C45_idempotent.


(** C45.  A pure wave of k cycles passes low_pass unchanged or vanishes. *)
Theorem C45_low_pass_waves :
  forall (s : arr fl) (F : list nat -> R) (f : R) (ta : Z) (ax : nat), sampled s F f ta ax ->
  let n := nth ax (shp s) 0%nat in let w := width f (nth 0%nat (shp s) 0%nat) in
  forall cl i k a b,
  0 <= cl -> inb (shp s) i -> (k < n)%nat ->
    (forall t, (t < n)%nat -> F (upd i ax t) = wave n k a b t) -> exists r,
    fourier_low_pass (VNd s) (Fin f) (Fin cl) ta = Ok (VNd r) /\ forall t, (t < n)%nat ->
      ((INR (cycles n k) + 1) * w <= cl -> get r (upd i ax t) = Fin (wave n k a b t)) /\
      (cl < (INR (cycles n k) + 1) * w -> get r (upd i ax t) = Fin 0).
Proof. exact low_pass_wave. Qed.
Print Assumptions C45_low_pass_waves.


(** C45.  The same for high_pass. *)
Theorem C45_high_pass_waves :
  forall (s : arr fl) (F : list nat -> R) (f : R) (ta : Z) (ax : nat), sampled s F f ta ax ->
  let n := nth ax (shp s) 0%nat in let w := width f (nth 0%nat (shp s) 0%nat) in
  forall ch i k a b,
  0 <= ch -> inb (shp s) i -> (k < n)%nat ->
    (forall t, (t < n)%nat -> F (upd i ax t) = wave n k a b t) -> exists r,
    fourier_high_pass (VNd s) (Fin f) (Fin ch) ta = Ok (VNd r) /\ forall t, (t < n)%nat ->
      (ch <= INR (cycles n k) * w -> get r (upd i ax t) = Fin (wave n k a b t)) /\
      (INR (cycles n k) * w < ch -> get r (upd i ax t) = Fin 0).
Proof. exact high_pass_wave. Qed.
Print Assumptions C45_high_pass_waves.


(** C45.  The same for band_pass. *)
Theorem C45_band_pass_waves :
  forall (s : arr fl) (F : list nat -> R) (f : R) (ta : Z) (ax : nat), sampled s F f ta ax ->
  let n := nth ax (shp s) 0%nat in let w := width f (nth 0%nat (shp s) 0%nat) in
  forall cl ch i k a b,
  0 <= cl -> 0 <= ch -> inb (shp s) i -> (k < n)%nat ->
    (forall t, (t < n)%nat -> F (upd i ax t) = wave n k a b t) -> exists r,
    fourier_band_pass (VNd s) (Fin f) (Fin cl) (Fin ch) ta = Ok (VNd r) /\ forall t, (t < n)%nat ->
      (cl < (INR (cycles n k) + 1) * w /\ INR (cycles n k) * w < ch -> get r (upd i ax t) = Fin (wave n k a b t)) /\
      ((INR (cycles n k) + 1) * w <= cl \/ ch <= INR (cycles n k) * w -> get r (upd i ax t) = Fin 0).
Proof. exact band_pass_wave. Qed.
Print Assumptions C45_band_pass_waves.


(** C45.  The same for band_block. *)
Theorem C45_band_block_waves :
  forall (s : arr fl) (F : list nat -> R) (f : R) (ta : Z) (ax : nat), sampled s F f ta ax ->
  let n := nth ax (shp s) 0%nat in let w := width f (nth 0%nat (shp s) 0%nat) in
  forall cl ch i k a b,
  0 <= cl -> 0 <= ch -> ch <= INR n / 2 * w -> inb (shp s) i -> (k < n)%nat ->
    (forall t, (t < n)%nat -> F (upd i ax t) = wave n k a b t) -> exists r,
    fourier_band_block (VNd s) (Fin f) (Fin cl) (Fin ch) ta = Ok (VNd r) /\ forall t, (t < n)%nat ->
      ((INR (cycles n k) + 1) * w <= cl \/ ch <= INR (cycles n k) * w -> get r (upd i ax t) = Fin (wave n k a b t)) /\
      (cl < (INR (cycles n k) + 1) * w /\ INR (cycles n k) * w < ch -> get r (upd i ax t) = Fin 0).
Proof. exact band_block_wave. Qed.
Print Assumptions C45_band_block_waves.

(** 8 samples at rate 8: the wave of 2 cycles survives a low-pass at 3 *)
Example C45_example : exists r, fourier_low_pass (VNd (ex_arr (fun i => wave 8 2 3 1 (nth 1 i 0%nat)) 8 8)) (Fin 8) (Fin 3) (-1) = Ok (VNd r) /\
  forall j t, (j < 8)%nat -> (t < 8)%nat -> get r [j; t] = Fin (wave 8 2 3 1 t).
Proof.
  pose proof (fun j Hj => C45_low_pass_waves _ _ 8 (-1)%Z 1%nat (ex_sampled (fun i => wave 8 2 3 1 (nth 1 i 0%nat)) 8 8 8 ltac:(lia) ltac:(lia) ltac:(lra)) 3 [j; 0%nat] 2 3 1
     ltac:(lra) Hj ltac:(cbn; lia) ltac:(intros; reflexivity)) as H.
  assert (B : forall j, (j < 8)%nat -> inb (shp (ex_arr (fun i => wave 8 2 3 1 (nth 1 i 0%nat)) 8 8)) [j; 0%nat]) by (intros; apply ex_inb; lia).
  destruct (H 0%nat (B 0%nat ltac:(lia))) as (r & E & _). exists r. split; [exact E|]. intros j t Hj Ht.
  destruct (H j (B j Hj)) as (r' & E' & H'). rewrite E in E'. injection E' as <-. destruct (H' t Ht) as [H1 _]. apply H1.
  unfold width. cbn [ex_arr shp nth cycles Nat.min Nat.sub]. cbn. lra.
Qed.


(** C46.  For a cutoff of a whole number of bins the low-pass and the high-pass add up to the signal. *)
Theorem C46_low_plus_high :
  forall (s : arr fl) (F : list nat -> R) (f : R) (ta : Z) (ax : nat), sampled s F f ta ax ->
  let n := nth ax (shp s) 0%nat in let w := width f (nth 0%nat (shp s) 0%nat) in
  forall c m,
  0 <= c -> c = INR m * w -> exists r1 r2 G1 G2,
    fourier_low_pass (VNd s) (Fin f) (Fin c) ta = Ok (VNd r1) /\ holds r1 G1 /\ shp r1 = shp s /\
    fourier_high_pass (VNd s) (Fin f) (Fin c) ta = Ok (VNd r2) /\ holds r2 G2 /\ shp r2 = shp s /\
    forall i, inb (shp s) i -> G1 i + G2 i = F i.
Proof. exact low_high_sum. Qed.
Print Assumptions C46_low_plus_high.


(** C46.  For a cutoff strictly between m and m+1 bins exactly the frequency of m cycles is lost from the sum. *)
Theorem C46_between_bins_loses_a_frequency :
  forall (s : arr fl) (F : list nat -> R) (f : R) (ta : Z) (ax : nat), sampled s F f ta ax ->
  let n := nth ax (shp s) 0%nat in let w := width f (nth 0%nat (shp s) 0%nat) in
  forall c m,
  INR m * w < c < (INR m + 1) * w -> exists r1 r2 G1 G2,
    fourier_low_pass (VNd s) (Fin f) (Fin c) ta = Ok (VNd r1) /\ holds r1 G1 /\ shp r1 = shp s /\
    fourier_high_pass (VNd s) (Fin f) (Fin c) ta = Ok (VNd r2) /\ holds r2 G2 /\ shp r2 = shp s /\
    forall i, inb (shp s) i -> filters n (fun k => cycles n k = m) (column F i ax)
                                 (fun t => column F i ax t - column G1 i ax t - column G2 i ax t).
Proof. exact low_high_gap. Qed.
Print Assumptions C46_between_bins_loses_a_frequency.


(** C46.  band_pass and band_block add up to the signal. *)
Theorem C46_pass_plus_block :
  forall (s : arr fl) (F : list nat -> R) (f : R) (ta : Z) (ax : nat), sampled s F f ta ax ->
  let n := nth ax (shp s) 0%nat in let w := width f (nth 0%nat (shp s) 0%nat) in
  forall cl ch,
  0 <= cl -> 0 <= ch -> ch <= INR n / 2 * w -> exists r1 r2 G1 G2,
    fourier_band_pass (VNd s) (Fin f) (Fin cl) (Fin ch) ta = Ok (VNd r1) /\ holds r1 G1 /\ shp r1 = shp s /\
    fourier_band_block (VNd s) (Fin f) (Fin cl) (Fin ch) ta = Ok (VNd r2) /\ holds r2 G2 /\ shp r2 = shp s /\
    forall i, inb (shp s) i -> G1 i + G2 i = F i.
Proof. exact pass_block_sum. Qed.
Print Assumptions C46_pass_plus_block.

Example C46_example : 3 = INR 3 * width 8 8 /\ INR 2 * width 8 8 < 5 / 2 < (INR 2 + 1) * width 8 8 /\ 3 <= INR 8 / 2 * width 8 8.
Proof. unfold width. cbn. lra. Qed.


(** C47.  Filtering along axis ax with given cutoffs is filtering the array with that axis moved to the front with the
    cutoffs multiplied by (length of axis 0) / (length of the filtered axis). *)
Theorem C47_effective_cutoff :
  forall (s : arr fl) (F : list nat -> R) (f : R) (ta : Z) (ax : nat), sampled s F f ta ax ->
  let n := nth ax (shp s) 0%nat in let w := width f (nth 0%nat (shp s) 0%nat) in
  forall cl ch fl,
  0 <= cl -> 0 <= ch ->
    let q := INR (nth 0%nat (shp s) 0%nat) / INR n in exists r r',
    fourier_filter (VNd s) (Fin f) (Fin cl) (Fin ch) ta fl = Ok (VNd r) /\
    fourier_filter (VNd (swapaxes ax 0 s)) (Fin f) (Fin (cl * q)) (Fin (ch * q)) 0 fl = Ok (VNd r') /\
    shp r = shp s /\ shp r' = shp (swapaxes ax 0 s) /\
    forall i, inb (shp s) i -> get r i = get (swapaxes ax 0 r') i.
Proof. exact effective_cutoff. Qed.
Print Assumptions C47_effective_cutoff.

(** C47 is false of the code: the same samples at the same rate, laid out along axis 1 of a 2-by-4 array or along
    axis 0 of a 4-by-2 array, give different results for the same cutoff: one cycle per record (frequency 1 at
    rate 4) survives a low-pass at 2 in the second layout only. *)
Theorem C47_axis_independence_refuted : exists F r r',
  (exists t, (t < 4)%nat /\ F [0%nat; t] <> 0) /\
  fourier_low_pass (VNd (mkArr [2; 4]%nat (fun i => Fin (F i)))) (Fin 4) (Fin 2) 1 = Ok (VNd r) /\
  fourier_low_pass (VNd (mkArr [4; 2]%nat (fun i => Fin (F [nth 1 i 0%nat; nth 0 i 0%nat])))) (Fin 4) (Fin 2) 0 = Ok (VNd r') /\
  forall j t, (j < 2)%nat -> (t < 4)%nat -> get r [j; t] = Fin 0 /\ get r' [t; j] = Fin (F [j; t]).
Proof.
  set (F := fun i : list nat => wave 4 1 1 0 (nth 1 i 0%nat)).
  assert (S1 : sampled (mkArr [2; 4]%nat (fun i => Fin (F i))) F 4 1 1).
  { split; cbn; try lia; try lra; [intros i _; reflexivity|]. split; [cbn; lia|left; reflexivity]. }
  assert (S2 : sampled (mkArr [4; 2]%nat (fun i => Fin (F [nth 1 i 0%nat; nth 0 i 0%nat]))) (fun i => F [nth 1 i 0%nat; nth 0 i 0%nat]) 4 0 0).
  { split; cbn; try lia; try lra; [intros i _; reflexivity|]. split; [cbn; lia|left; reflexivity]. }
  pose proof (fun j Hj => C45_low_pass_waves _ _ 4 1%Z 1%nat S1 2 [j; 0%nat] 1 1 0 ltac:(lra) Hj ltac:(cbn; lia) ltac:(intros; reflexivity)) as H1.
  pose proof (fun j Hj => C45_low_pass_waves _ _ 4 0%Z 0%nat S2 2 [0%nat; j] 1 1 0 ltac:(lra) Hj ltac:(cbn; lia) ltac:(intros; reflexivity)) as H2.
  cbn [shp] in H1, H2.
  assert (B1 : forall j, (j < 2)%nat -> inb [2; 4]%nat [j; 0%nat]) by (intros; apply ex_inb; lia).
  assert (B2 : forall j, (j < 2)%nat -> inb [4; 2]%nat [0%nat; j]) by (intros; apply ex_inb; lia).
  destruct (H1 0%nat (B1 0%nat ltac:(lia))) as (r & E & _). destruct (H2 0%nat (B2 0%nat ltac:(lia))) as (r' & E' & _).
  exists F, r, r'. split; [|split; [exact E|split; [exact E'|]]].
  - exists 0%nat. split; [lia|]. unfold F, wave. cbn [nth]. assert (E0 : turn 4 1 0 = 0) by (unfold turn; change (INR (1 * 0)) with 0; unfold Rdiv; ring). rewrite E0, cos_0. lra.
  - intros j t Hj Ht. split.
    + destruct (H1 j (B1 j Hj)) as (q & Eq & Hq). rewrite E in Eq. injection Eq as <-. destruct (Hq t Ht) as [_ Z]. apply Z.
      unfold width, cycles. cbn. lra.
    + destruct (H2 j (B2 j Hj)) as (q & Eq & Hq). rewrite E' in Eq. injection Eq as <-. destruct (Hq t Ht) as [Z _]. apply Z.
      unfold width, cycles. cbn. lra.
Qed.
Print Assumptions C47_axis_independence_refuted.


(** C77.  A labelled signal gives the values of its plain array with its dimensions, coordinates, attributes and name
    when the filtered axis is as long as axis 0; otherwise the call fails. *)
Theorem C77_labelled_signal :
  forall d F f ta ax cl ch fl,
  sampled (dat d) F f ta ax -> 0 <= cl -> 0 <= ch -> exists r,
  fourier_filter (VNd (dat d)) (Fin f) (Fin cl) (Fin ch) ta fl = Ok (VNd r) /\ shp r = shp (dat d) /\
  (nth ax (shp (dat d)) 0%nat = nth 0 (shp (dat d)) 0%nat ->
     fourier_filter (VDa d) (Fin f) (Fin cl) (Fin ch) ta fl = Ok (VDa (mkDa (dims d) r (coords d) (attrs d) (daname d)))) /\
  (nth ax (shp (dat d)) 0%nat <> nth 0 (shp (dat d)) 0%nat ->
     fourier_filter (VDa d) (Fin f) (Fin cl) (Fin ch) ta fl = Err ValueError).
Proof. exact filter_labelled. Qed.
Print Assumptions C77_labelled_signal.

Example C77_example : let d := mkDa ["time"; "x"]%string (ex_arr (fun _ => 1) 4 3) [] [] None in
  sampled (dat d) (fun _ => 1) 12 (-1) 1 /\ nth 1 (shp (dat d)) 0%nat <> nth 0 (shp (dat d)) 0%nat.
Proof. split; [apply ex_sampled; try lia; lra|cbn; lia]. Qed.

