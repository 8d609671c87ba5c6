(** C125: what a Fourier filter does to the energy, the mean and the timing of a signal. *)
From Coq Require Import Reals List Arith ZArith Lia Lra Bool.
From Verif Require Import PyBase Num Arr ArrFacts ChunkFacts FourierFacts Hybrid Spherical Fourier SpecSum SpecFourier SumFacts FourierDft FourierMore FourierEnergy.
Import ListNotations.
Local Open Scope R_scope.

(** C125.  Along the axis filtered, the energy of the data is the energy of what the filter returns plus the energy of
    what it takes away: the two parts are orthogonal and the output never has more energy than the input. *)
Theorem C125_energy :
  forall (s : arr fl) (F : list nat -> R) (f : R) (ta : Z) (ax : nat), sampled s F f ta ax ->
  let n := nth ax (shp s) 0%nat in 
  forall cl ch fg,
  0 <= cl -> 0 <= ch -> exists r G,
    fourier_filter (VNd s) (Fin f) (Fin cl) (Fin ch) ta fg = Ok (VNd r) /\ shp r = shp s /\ holds r G /\
    forall i, inb (shp s) i ->
      bigsum n (fun t => column F i ax t * column F i ax t) =
      bigsum n (fun t => column G i ax t * column G i ax t) +
      bigsum n (fun t => (column F i ax t - column G i ax t) * (column F i ax t - column G i ax t)).
Proof. exact c125_energy. Qed.
Print Assumptions C125_energy.

(** C125.  The result is the least-squares fit: no signal that the same filter leaves unchanged is closer to the data. *)
Theorem C125_closest :
  forall (s : arr fl) (F : list nat -> R) (f : R) (ta : Z) (ax : nat), sampled s F f ta ax ->
  let n := nth ax (shp s) 0%nat in 
  forall s2 Z cl ch fg,
  0 <= cl -> 0 <= ch -> sampled s2 Z f ta ax -> shp s2 = shp s ->
    (exists r2, fourier_filter (VNd s2) (Fin f) (Fin cl) (Fin ch) ta fg = Ok (VNd r2) /\ holds r2 Z /\ shp r2 = shp s2) ->
    exists r G,
    fourier_filter (VNd s) (Fin f) (Fin cl) (Fin ch) ta fg = Ok (VNd r) /\ shp r = shp s /\ holds r G /\
    forall i, inb (shp s) i ->
      bigsum n (fun t => (column F i ax t - column G i ax t) * (column F i ax t - column G i ax t)) <=
      bigsum n (fun t => (column F i ax t - column Z i ax t) * (column F i ax t - column Z i ax t)).
Proof. exact c125_closest. Qed.
Print Assumptions C125_closest.

(** C125.  A low pass keeps the mean as soon as its cutoff reaches the width of one bin and loses it below. *)
Theorem C125_mean_low :
  forall (s : arr fl) (F : list nat -> R) (f : R) (ta : Z) (ax : nat), sampled s F f ta ax ->
  let n := nth ax (shp s) 0%nat in let w := width f (nth 0%nat (shp s) 0%nat) in 
  forall cl,
  0 <= cl -> exists r G,
    fourier_low_pass (VNd s) (Fin f) (Fin cl) ta = Ok (VNd r) /\ shp r = shp s /\ holds r G /\
    forall i, inb (shp s) i -> (w <= cl -> bigsum n (column G i ax) = bigsum n (column F i ax)) /\ (cl < w -> bigsum n (column G i ax) = 0).
Proof. exact c125_mean_low. Qed.
Print Assumptions C125_mean_low.

(** C125.  A high pass with a positive cutoff returns a signal with mean zero. *)
Theorem C125_mean_high :
  forall (s : arr fl) (F : list nat -> R) (f : R) (ta : Z) (ax : nat), sampled s F f ta ax ->
  let n := nth ax (shp s) 0%nat in let w := width f (nth 0%nat (shp s) 0%nat) in 
  forall ch,
  0 <= ch -> exists r G,
    fourier_high_pass (VNd s) (Fin f) (Fin ch) ta = Ok (VNd r) /\ shp r = shp s /\ holds r G /\
    forall i, inb (shp s) i -> (ch = 0 -> bigsum n (column G i ax) = bigsum n (column F i ax)) /\ (0 < ch -> bigsum n (column G i ax) = 0).
Proof. exact c125_mean_high. Qed.
Print Assumptions C125_mean_high.

(** C125.  Filtering a record turned by d samples (with wrap around) gives the filtered record turned by d samples. *)
Theorem C125_delay :
  forall (s : arr fl) (F : list nat -> R) (f : R) (ta : Z) (ax : nat), sampled s F f ta ax ->
  let n := nth ax (shp s) 0%nat in 
  forall s2 F2 d cl ch fg,
  0 <= cl -> 0 <= ch -> sampled s2 F2 f ta ax -> shp s2 = shp s ->
    (forall i, inb (shp s) i -> F2 i = F (upd i ax ((nth ax i 0 + d) mod n)%nat)) -> exists r r2 G,
    fourier_filter (VNd s) (Fin f) (Fin cl) (Fin ch) ta fg = Ok (VNd r) /\ shp r = shp s /\ holds r G /\
    fourier_filter (VNd s2) (Fin f) (Fin cl) (Fin ch) ta fg = Ok (VNd r2) /\ shp r2 = shp s /\
    holds r2 (fun i => G (upd i ax ((nth ax i 0 + d) mod n)%nat)).
Proof. exact c125_delay. Qed.
Print Assumptions C125_delay.

(** C125.  Filtering a record read backwards gives the filtered record read backwards: the filter shifts no phase. *)
Theorem C125_reversal :
  forall (s : arr fl) (F : list nat -> R) (f : R) (ta : Z) (ax : nat), sampled s F f ta ax ->
  let n := nth ax (shp s) 0%nat in 
  forall s2 F2 cl ch fg,
  0 <= cl -> 0 <= ch -> sampled s2 F2 f ta ax -> shp s2 = shp s ->
    (forall i, inb (shp s) i -> F2 i = F (upd i ax (n - 1 - nth ax i 0)%nat)) -> exists r r2 G,
    fourier_filter (VNd s) (Fin f) (Fin cl) (Fin ch) ta fg = Ok (VNd r) /\ shp r = shp s /\ holds r G /\
    fourier_filter (VNd s2) (Fin f) (Fin cl) (Fin ch) ta fg = Ok (VNd r2) /\ shp r2 = shp s /\
    holds r2 (fun i => G (upd i ax (n - 1 - nth ax i 0)%nat)).
Proof. exact c125_reversal. Qed.
Print Assumptions C125_reversal.

(** a 2-by-3 array filtered along axis 1: the data, the data turned by one sample, the data read backwards, and an array
    that the low pass keeping only the mean leaves unchanged *)
Definition ex_val (i : list nat) : R := match i with [a; b] => INR (a + b * b) | _ => 0 end.
Definition ex_of (F : list nat -> R) : arr fl := mkArr [2%nat; 3%nat] (fun i => Fin (F i)).
Lemma ex_of_sampled F : sampled (ex_of F) F 2 (-1) 1.
Proof. split; cbn; try lra; try lia; [intros i _; reflexivity|]. split; cbn; lia. Qed.
(** a signal with nothing but its mean *)
Lemma ex_const n Keep x y : (0 < n)%nat -> filters n Keep x y -> Keep 0%nat -> (forall k, (0 < k < n)%nat -> ~ Keep k) ->
  forall t, (t < n)%nat -> y t = bigsum n x / INR n.
Proof.
  intros Hn H K0 K t Ht. assert (NI : INR n <> 0) by (apply not_0_INR; lia). set (m := bigsum n x / INR n).
  transitivity (wave n 0 m 0 t).
  - revert t Ht. apply spectrum_determines. intros k Hk. unfold same_bin. destruct (Nat.eq_dec k 0) as [->|Nk].
    + destruct (H 0%nat Hk) as [A _]. destruct (A K0) as [E1 E2]. rewrite E1, E2.
      assert (Z0 : forall t, turn n 0 t = 0) by (intros; unfold turn; cbn [Nat.mul INR]; unfold Rdiv; ring).
      unfold spec_re, spec_im, wave. split.
      * rewrite (bigsum_ext n (fun t => (m * _ + _) * _) (fun _ => m)) by (intros; rewrite Z0, cos_0, sin_0; ring).
        rewrite (bigsum_ext n (fun t => x t * _) x) by (intros; rewrite Z0, cos_0; ring). rewrite bigsum_const. unfold m. field. auto.
      * rewrite !bigsum_0; auto; intros; rewrite Z0, sin_0; ring.
    + destruct (H k Hk) as [_ B]. destruct (B (K k ltac:(lia))) as [E1 E2]. rewrite E1, E2.
      destruct (wave_spec n 0 m 0 k Hn Hk ltac:(lia) ltac:(cbn; lia)) as [W1 W2]. rewrite W1, W2. split; reflexivity.
  - unfold wave, turn. cbn [Nat.mul INR]. replace (2 * PI * 0 / INR n) with 0 by (unfold Rdiv; ring). rewrite cos_0, sin_0. ring.
Qed.
Example C125_example :
  (exists r G, fourier_low_pass (VNd (ex_of ex_val)) (Fin 2) (Fin 1) (-1) = Ok (VNd r) /\ holds r G /\
     G [0%nat; 0%nat] = 5 / 3 /\ G [0%nat; 1%nat] = 5 / 3 /\ G [0%nat; 2%nat] = 5 / 3) /\
  0 * 0 + 1 * 1 + 4 * 4 = 3 * (5 / 3 * (5 / 3)) + ((0 - 5 / 3) * (0 - 5 / 3) + (1 - 5 / 3) * (1 - 5 / 3) + (4 - 5 / 3) * (4 - 5 / 3)) /\
  (exists r r2 G, fourier_filter (VNd (ex_of ex_val)) (Fin 2) (Fin 1) (Fin 1) (-1) (mkFlags true false false false) = Ok (VNd r) /\ holds r G /\
     fourier_filter (VNd (ex_of (fun i => ex_val (upd i 1 ((nth 1 i 0 + 1) mod 3)%nat)))) (Fin 2) (Fin 1) (Fin 1) (-1) (mkFlags true false false false) = Ok (VNd r2) /\
     holds r2 (fun i => G (upd i 1 ((nth 1 i 0 + 1) mod 3)%nat))).
Proof.
  split; [|split; [lra|]].
  - destruct (low_pass_spec _ _ _ _ _ (ex_of_sampled ex_val) 1 ltac:(lra)) as (r & G & E & _ & H & K).
    exists r, G. do 2 (split; [assumption|]).
    assert (Hi : inb (shp (ex_of ex_val)) [0%nat; 0%nat]) by (apply inb_nth; split; [reflexivity|]; intros [|[|k]] Hk; cbn in *; lia).
    specialize (K _ Hi). cbn [ex_of shp nth] in K. unfold width in K. cbn [INR] in K.
    assert (X : forall t, (t < 3)%nat -> column G [0%nat; 0%nat] 1 t = 5 / 3).
    { intros t Ht. rewrite (ex_const 3 _ _ _ ltac:(lia) K); auto.
      - cbn. lra.
      - cbn. lra.
      - intros k Hk. unfold cycles. assert (k = 1 \/ k = 2)%nat as [->| ->] by lia; cbn; lra. }
    pose proof (X 0%nat ltac:(lia)) as X0. pose proof (X 1%nat ltac:(lia)) as X1. pose proof (X 2%nat ltac:(lia)) as X2.
    unfold column in X0, X1, X2. cbn [upd] in X0, X1, X2. auto.
  - destruct (C125_delay _ _ _ _ _ (ex_of_sampled ex_val) (ex_of (fun i => ex_val (upd i 1 ((nth 1 i 0 + 1) mod 3)%nat))) (fun i => ex_val (upd i 1 ((nth 1 i 0 + 1) mod 3)%nat)) 1 1 1
      (mkFlags true false false false) ltac:(lra) ltac:(lra) (ex_of_sampled _) eq_refl (fun i _ => eq_refl)) as (r & r2 & G & A & _ & B & C & _ & D).
    exists r, r2, G. auto.
Qed.
(** an array that the filter leaves unchanged, as [C125_closest] asks for *)
Example C125_example_closest : exists r2, fourier_filter (VNd (ex_of (fun _ => 0))) (Fin 2) (Fin 1) (Fin 1) (-1) (mkFlags true false false false) = Ok (VNd r2) /\
  holds r2 (fun _ => 0) /\ shp r2 = shp (ex_of (fun _ => 0)).
Proof.
  destruct (C125_energy _ _ _ _ _ (ex_of_sampled (fun _ => 0)) 1 1 (mkFlags true false false false) ltac:(lra) ltac:(lra)) as (r & G & A & B & C & D).
  exists r. split; [exact A|]. split; [|exact B]. intros i Hi. rewrite (C i Hi). f_equal. rewrite B in Hi. specialize (D i Hi).
  cbn [ex_of shp nth] in D. rewrite (bigsum_0 3 (fun t => column (fun _ => 0) i 1 t * _)) in D by (intros; unfold column; ring).
  pose proof (bigsum_nonneg 3 (fun t => column G i 1 t * column G i 1 t) ltac:(intros; apply Rle_0_sqr)) as N1.
  pose proof (bigsum_nonneg 3 (fun t => (column (fun _ => 0) i 1 t - column G i 1 t) * (column (fun _ => 0) i 1 t - column G i 1 t)) ltac:(intros; apply Rle_0_sqr)) as N2.
  assert (E : bigsum 3 (fun t => column G i 1 t * column G i 1 t) = 0) by lra.
  destruct (proj1 (inb_nth _ _) Hi) as [_ Hb]. specialize (Hb 1%nat ltac:(cbn; lia)). cbn [ex_of shp nth] in Hb.
  pose proof (bigsum_zero_inv 3 _ ltac:(intros; apply Rle_0_sqr) E (nth 1 i 0%nat) Hb) as Z. cbn beta in Z. apply Rsqr_0_uniq in Z.
  unfold column in Z. rewrite upd_self in Z. exact Z.
Qed.
