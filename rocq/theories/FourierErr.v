(** Which calls of the Fourier filters fail, and how. *)
From Coq Require Import Reals List Bool Arith ZArith Lra Lia.
From Verif Require Import PyBase Num NumFacts Arr ArrFacts Hybrid SpecFourier Fourier FourierDft FourierFacts FourierApi FourierMore FourierEnd SpecFourierErr.
Import ListNotations.
Local Open Scope R_scope.

Lemma no_axis_pyidx r ta : no_axis r ta -> pyidx r ta = None.
Proof.
  intros H. unfold pyidx. destruct (Z.ltb_spec ta 0).
  - destruct H; [|lia]. destruct (Z.leb_spec 0 (ta + Z.of_nat r)); [lia|reflexivity].
  - destruct H; [lia|]. destruct (Z.leb_spec 0 ta), (Z.ltb_spec ta (Z.of_nat r)); try lia; reflexivity.
Qed.
Lemma axis_dec r ta : no_axis r ta \/ exists ax, axis_of r ta ax.
Proof.
  destruct (Z.ltb_spec ta (- Z.of_nat r)); [left; left; auto|].
  destruct (Z.leb_spec (Z.of_nat r) ta); [left; right; auto|]. right.
  destruct (Z.ltb_spec ta 0).
  - exists (Z.to_nat (ta + Z.of_nat r)). split; [lia|right; lia].
  - exists (Z.to_nat ta). split; [lia|left; lia].
Qed.

Section Err.
  Variables (s : arr fl) (f cl ch : fl) (ta : Z) (flg : flags).
  Notation call := (filter_arr s f cl ch ta flg).

  Lemma fa_rank0 : shp s = [] -> call = Err TypeError.
  Proof. intros H. unfold filter_arr. rewrite H. reflexivity. Qed.
  Lemma fa_empty0 sh : shp s = 0%nat :: sh -> call = Err ZeroDivisionError.
  Proof. intros H. unfold filter_arr. rewrite H. reflexivity. Qed.
  Lemma fa_no_axis : (0 < nth 0 (shp s) 0)%nat -> no_axis (ndim s) ta -> call = Err ValueError.
  Proof.
    intros H A. unfold filter_arr. rewrite (no_axis_pyidx _ _ A). destruct (shp s) as [|m sh]; [cbn in H; lia|].
    cbn in H. destruct (Nat.eqb_spec m 0); [lia|]. reflexivity.
  Qed.
  Section Axis.
    Variable ax : nat.
    Hypothesis A : axis_of (ndim s) ta ax.
    Hypothesis H0 : (0 < nth 0 (shp s) 0)%nat.
    Lemma sw_len : hd 0%nat (shp (swapaxes ax 0 s)) = nth ax (shp s) 0%nat.
    Proof using A H0.
      unfold swapaxes. cbn [shp]. destruct A as [Hr _]. unfold ndim in Hr.
      destruct (shp s) as [|m sh] eqn:E; [cbn in Hr; lia|]. apply swap0_hd. auto.
    Qed.
    Lemma fa_step : call =
      guard (Nat.eqb (nth ax (shp s) 0%nat) 0) raise ValueError ;;
      guard (neqb (fl_div f (Fin (INR (nth 0 (shp s) 0%nat)))) (Fin 0)) raise ZeroDivisionError ;;
      do cfl <- to_int (fl_toZ Rfloor (fl_div cl (fl_div f (Fin (INR (nth 0 (shp s) 0%nat)))))) (fl_div cl (fl_div f (Fin (INR (nth 0 (shp s) 0%nat))))) ;;
      do cfh <- to_int (fl_toZ Rceil (fl_div ch (fl_div f (Fin (INR (nth 0 (shp s) 0%nat)))))) (fl_div ch (fl_div f (Fin (INR (nth 0 (shp s) 0%nat))))) ;;
      Ok (swapaxes ax 0 (mkArr (shp (swapaxes ax 0 s)) (fun i => ifft_real (nth ax (shp s) 0%nat)
            (apply_filters flg cfl cfh (fft (nth ax (shp s) 0%nat) (fun t => get (swapaxes ax 0 s) (t :: tl i)))) (hd 0%nat i)))).
    Proof using A H0.
      pose proof sw_len as Es. unfold filter_arr. rewrite (axis_pyidx _ _ _ A). cbn [oget bind]. rewrite Es.
      destruct (shp s) as [|m sh] eqn:E; [cbn in H0; lia|]. change (nth 0 (m :: sh) 0%nat) with m in *.
      destruct (Nat.eqb_spec m 0); [lia|]. cbv beta iota zeta.
      change (@ofZ Num.fl NumFl) with (fun z => Fin (IZR z)). cbv beta. rewrite <- INR_IZR_INZ. reflexivity.
    Qed.
    Lemma fa_empty : nth ax (shp s) 0%nat = 0%nat -> call = Err ValueError.
    Proof using A H0. intros E. rewrite fa_step, E. reflexivity. Qed.
    Hypothesis Hn : (0 < nth ax (shp s) 0)%nat.
    Notation w := (fl_div f (Fin (INR (nth 0 (shp s) 0%nat)))).
    Lemma n0_pos : 0 < INR (nth 0 (shp s) 0%nat).
    Proof using H0. apply lt_0_INR. auto. Qed.
    Lemma fa_zero : f = Fin 0 -> call = Err ZeroDivisionError.
    Proof using A H0 Hn.
      intros Hf. rewrite fa_step, Hf. destruct (Nat.eqb_spec (nth ax (shp s) 0%nat) 0); [lia|].
      pose proof n0_pos. rewrite fdiv_fin by lra. unfold Rdiv. rewrite Rmult_0_l. unfold neqb. cbn [NumFl fl_eq].
      rewrite reqb_true by reflexivity. reflexivity.
    Qed.
    Lemma toZ_nan g x : x = NaN -> to_int (fl_toZ g x) x = Err ValueError.
    Proof. intros ->. reflexivity. Qed.
    Lemma toZ_inf g x : x = PInf \/ x = NInf -> to_int (fl_toZ g x) x = Err OverflowError.
    Proof. intros [-> | ->]; reflexivity. Qed.
    Lemma toZ_fin g x : finite x -> exists z, to_int (fl_toZ g x) x = Ok z.
    Proof. intros [r ->]. eexists; reflexivity. Qed.
    Lemma kinds (x : fl) : finite x \/ x = NaN \/ x = PInf \/ x = NInf.
    Proof. destruct x; [left; eexists; reflexivity| | |]; auto. Qed.
    Lemma not_fin (x : fl) : ~ finite x -> x = NaN \/ x = PInf \/ x = NInf.
    Proof. destruct (kinds x); tauto. Qed.
    Lemma w_fin : f <> Fin 0 -> finite f -> exists w0, w0 <> 0 /\ w = Fin w0.
    Proof using H0.
      intros Hf [r E]. pose proof n0_pos as P. rewrite E in *. rewrite fdiv_fin by lra. assert (r <> 0) by congruence.
      eexists. split; [|reflexivity]. unfold Rdiv. apply Rmult_integral_contrapositive. split; [auto|]. apply Rinv_neq_0_compat. lra.
    Qed.
    Lemma w_inf : f = PInf \/ f = NInf -> w = PInf \/ w = NInf.
    Proof using H0. intros H. pose proof n0_pos as P. destruct H as [-> | ->]; unfold fl_div; destruct (Rlt_dec _ 0); auto. Qed.
    Lemma w_cases : f <> Fin 0 -> neqb w (Fin 0) = false.
    Proof using H0.
      intros Hf. destruct (kinds f) as [F|[F|F]].
      - destruct (w_fin Hf F) as (w0 & N & ->). unfold neqb. cbn [NumFl fl_eq]. apply reqb_false. auto.
      - rewrite F. reflexivity.
      - destruct (w_inf F) as [-> | ->]; reflexivity.
    Qed.
    Lemma div_inf (c : fl) x : x <> 0 -> c = PInf \/ c = NInf -> fl_div c (Fin x) = PInf \/ fl_div c (Fin x) = NInf.
    Proof. intros H [-> | ->]; unfold fl_div; destruct (Rlt_dec x 0); auto. Qed.
    Lemma div_nan (c : fl) : fl_div c NaN = NaN.
    Proof. destruct c; reflexivity. Qed.
    Lemma div_infinite (c v : fl) : v = PInf \/ v = NInf -> (finite c -> finite (fl_div c v)) /\ (~ finite c -> fl_div c v = NaN).
    Proof.
      intros H. split; [intros [x ->]; destruct H as [-> | ->]; eexists; reflexivity|].
      intros N. destruct (not_fin c N) as [-> | [-> | ->]], H as [-> | ->]; reflexivity.
    Qed.
    Lemma fa_cuts : f <> Fin 0 -> call =
      do cfl <- to_int (fl_toZ Rfloor (fl_div cl w)) (fl_div cl w) ;;
      do cfh <- to_int (fl_toZ Rceil (fl_div ch w)) (fl_div ch w) ;;
      Ok (swapaxes ax 0 (mkArr (shp (swapaxes ax 0 s)) (fun i => ifft_real (nth ax (shp s) 0%nat)
            (apply_filters flg cfl cfh (fft (nth ax (shp s) 0%nat) (fun t => get (swapaxes ax 0 s) (t :: tl i)))) (hd 0%nat i)))).
    Proof using A H0 Hn.
      intros Hf. rewrite fa_step, (w_cases Hf). destruct (Nat.eqb_spec (nth ax (shp s) 0%nat) 0); [lia|]. reflexivity.
    Qed.
    Lemma fa_rate : (f = NaN \/ (f = PInf \/ f = NInf) /\ (~ finite cl \/ ~ finite ch)) -> call = Err ValueError.
    Proof using A H0 Hn.
      intros H. assert (Hf : f <> Fin 0) by (destruct H as [-> | [[-> | ->] _]]; discriminate). rewrite (fa_cuts Hf).
      destruct H as [E | [F H]].
      - rewrite E at 1 2. change (fl_div NaN (Fin (INR (nth 0 (shp s) 0%nat)))) with NaN. rewrite div_nan. reflexivity.
      - destruct (div_infinite cl _ (w_inf F)) as [L1 L2]. destruct (div_infinite ch _ (w_inf F)) as [C1 C2].
        destruct (kinds cl) as [K|K].
        + destruct H as [H|H]; [contradiction|]. destruct (toZ_fin Rfloor _ (L1 K)) as [z ->]. cbn [bind]. rewrite (C2 H). reflexivity.
        + assert (N : ~ finite cl) by (intros [x Q]; destruct K as [-> | [-> | ->]]; discriminate). rewrite (L2 N). reflexivity.
    Qed.
    Lemma fa_low : f <> Fin 0 -> finite f -> (cl = NaN -> call = Err ValueError) /\ (cl = PInf \/ cl = NInf -> call = Err OverflowError).
    Proof using A H0 Hn.
      intros Hf F. rewrite (fa_cuts Hf). destruct (w_fin Hf F) as (w0 & N & ->). split; intros H.
      - rewrite H at 1 2. reflexivity.
      - rewrite (toZ_inf Rfloor _ (div_inf _ _ N H)). reflexivity.
    Qed.
    Lemma fa_high : f <> Fin 0 -> finite f -> finite cl -> (ch = NaN -> call = Err ValueError) /\ (ch = PInf \/ ch = NInf -> call = Err OverflowError).
    Proof using A H0 Hn.
      intros Hf F [l L]. rewrite (fa_cuts Hf). destruct (w_fin Hf F) as (w0 & N & ->). rewrite L. rewrite (fdiv_fin l) by auto.
      cbn [fl_toZ to_int bind]. split; intros H.
      - rewrite H at 1 2. reflexivity.
      - rewrite (toZ_inf Rceil _ (div_inf _ _ N H)). reflexivity.
    Qed.
    Lemma fa_ok : f <> Fin 0 -> f <> NaN -> finite cl -> finite ch -> exists r, call = Ok r /\ shp r = shp s.
    Proof using A H0 Hn.
      intros Hf Hf' Fl Fh. rewrite (fa_cuts Hf).
      assert (Q : forall c, finite c -> finite (fl_div c w)).
      { intros c Fc. destruct (kinds f) as [F|[F|F]]; [|contradiction|apply (div_infinite c _ (w_inf F)); auto].
        destruct (w_fin Hf F) as (w0 & N & ->). destruct Fc as [x ->]. rewrite fdiv_fin by auto. eexists; reflexivity. }
      destruct (toZ_fin Rfloor _ (Q _ Fl)) as [z ->]. destruct (toZ_fin Rceil _ (Q _ Fh)) as [z' ->]. cbn [bind].
      eexists. split; [reflexivity|]. unfold swapaxes. cbn [shp]. destruct A as [Hr _]. unfold ndim in Hr. apply swap0_inv. auto.
    Qed.
  End Axis.
End Err.

Lemma filter_fails (s : arr fl) f cl ch ta flg :
  (shp s = [] -> fourier_filter (VNd s) f cl ch ta flg = Err TypeError) /\
  (forall sh, shp s = 0%nat :: sh -> fourier_filter (VNd s) f cl ch ta flg = Err ZeroDivisionError) /\
  ((0 < nth 0 (shp s) 0)%nat -> no_axis (ndim s) ta -> fourier_filter (VNd s) f cl ch ta flg = Err ValueError) /\
  (forall ax, (0 < nth 0 (shp s) 0)%nat -> axis_of (ndim s) ta ax -> nth ax (shp s) 0%nat = 0%nat ->
     fourier_filter (VNd s) f cl ch ta flg = Err ValueError) /\
  (has_samples s ta ->
     (f = Fin 0 -> fourier_filter (VNd s) f cl ch ta flg = Err ZeroDivisionError) /\
     (f = NaN \/ (f = PInf \/ f = NInf) /\ (~ finite cl \/ ~ finite ch) -> fourier_filter (VNd s) f cl ch ta flg = Err ValueError) /\
     (f <> Fin 0 -> finite f ->
        (cl = NaN -> fourier_filter (VNd s) f cl ch ta flg = Err ValueError) /\
        (cl = PInf \/ cl = NInf -> fourier_filter (VNd s) f cl ch ta flg = Err OverflowError) /\
        (finite cl -> ch = NaN -> fourier_filter (VNd s) f cl ch ta flg = Err ValueError) /\
        (finite cl -> ch = PInf \/ ch = NInf -> fourier_filter (VNd s) f cl ch ta flg = Err OverflowError))).
Proof.
  cbn [fourier_filter].
  split; [intros H; rewrite (fa_rank0 s f cl ch ta flg H); reflexivity|].
  split; [intros sh H; rewrite (fa_empty0 s f cl ch ta flg sh H); reflexivity|].
  split; [intros H A; rewrite (fa_no_axis s f cl ch ta flg H A); reflexivity|].
  split; [intros ax H A E; rewrite (fa_empty s f cl ch ta flg ax A H E); reflexivity|].
  intros [H (ax & A & E)].
  split; [intros Z; rewrite (fa_zero s f cl ch ta flg ax A H E Z); reflexivity|].
  split; [intros Z; rewrite (fa_rate s f cl ch ta flg ax A H E Z); reflexivity|].
  intros Hf F. destruct (fa_low s f cl ch ta flg ax A H E Hf F) as [L1 L2].
  split; [intros Z; rewrite (L1 Z); reflexivity|]. split; [intros Z; rewrite (L2 Z); reflexivity|].
  split; intros Fl Z; destruct (fa_high s f cl ch ta flg ax A H E Hf F Fl) as [C1 C2]; [rewrite (C1 Z)|rewrite (C2 Z)]; reflexivity.
Qed.

Lemma filter_works (s : arr fl) f cl ch ta flg :
  (exists r, fourier_filter (VNd s) f cl ch ta flg = Ok r) <-> has_samples s ta /\ f <> Fin 0 /\ f <> NaN /\ finite cl /\ finite ch.
Proof.
  split.
  - intros [r E]. cbn [fourier_filter] in E.
    destruct (shp s) as [|m sh] eqn:S; [rewrite (fa_rank0 s f cl ch ta flg S) in E; discriminate|].
    destruct m as [|m]; [rewrite (fa_empty0 s f cl ch ta flg sh S) in E; discriminate|].
    assert (H : (0 < nth 0 (shp s) 0)%nat) by (rewrite S; cbn; lia).
    destruct (axis_dec (ndim s) ta) as [A|[ax A]]; [rewrite (fa_no_axis s f cl ch ta flg H A) in E; discriminate|].
    destruct (Nat.eq_dec (nth ax (shp s) 0%nat) 0) as [Z|Z]; [rewrite (fa_empty s f cl ch ta flg ax A H Z) in E; discriminate|].
    assert (Hn : (0 < nth ax (shp s) 0)%nat) by lia.
    assert (Hf : f <> Fin 0) by (intros Q; rewrite (fa_zero s f cl ch ta flg ax A H Hn Q) in E; discriminate).
    assert (U : f <> NaN) by (intros Q; rewrite (fa_rate s f cl ch ta flg ax A H Hn (or_introl Q)) in E; discriminate).
    assert (V : (f = PInf \/ f = NInf) -> ~ (~ finite cl \/ ~ finite ch)).
    { intros F Q. rewrite (fa_rate s f cl ch ta flg ax A H Hn (or_intror (conj F Q))) in E. discriminate. }
    split; [split; [auto|exists ax; auto]|]. split; [auto|]. split; [auto|].
    destruct (kinds f) as [F|[F|F]]; [|contradiction|].
    + destruct (fa_low s f cl ch ta flg ax A H Hn Hf F) as [L1 L2].
      destruct (kinds cl) as [Fl|[Q|Q]]; [|rewrite (L1 Q) in E; discriminate|rewrite (L2 Q) in E; discriminate]. split; [auto|].
      destruct (fa_high s f cl ch ta flg ax A H Hn Hf F Fl) as [C1 C2].
      destruct (kinds ch) as [Fh|[Q|Q]]; [auto|rewrite (C1 Q) in E; discriminate|rewrite (C2 Q) in E; discriminate].
    + specialize (V F). assert (Inf : forall x, x = NaN \/ x = PInf \/ x = NInf -> ~ finite x) by (intros x [-> | [-> | ->]] [y Q]; discriminate).
      split; [destruct (kinds cl) as [K|K]|destruct (kinds ch) as [K|K]]; auto; exfalso; apply V; [left|right]; apply Inf; auto.
  - intros ([H (ax & A & Hn)] & Hf & Hf' & Fl & Fh). destruct (fa_ok s f cl ch ta flg ax A H Hn Hf Hf' Fl Fh) as (r & E & _).
    cbn [fourier_filter]. rewrite E. eexists; reflexivity.
Qed.

Lemma filter_labels_fail d f cl ch ta flg e :
  fourier_filter (VNd (dat d)) f cl ch ta flg = Err e ->
  fourier_filter (VDa d) f cl ch ta flg = Err e /\ fourier_filter (VSubDa d) f cl ch ta flg = Err e.
Proof.
  cbn [fourier_filter]. destruct (filter_arr (dat d) f cl ch ta flg); cbn [bind]; intros E; [discriminate|]. auto.
Qed.

Lemma shorthands_work (s : arr fl) f c c' ta : has_samples s ta -> f <> Fin 0 -> f <> NaN ->
  ((exists r, fourier_low_pass (VNd s) f c ta = Ok r) <-> finite c) /\
  ((exists r, fourier_high_pass (VNd s) f c ta = Ok r) <-> finite c) /\
  ((exists r, fourier_band_pass (VNd s) f c c' ta = Ok r) <-> finite c /\ finite c') /\
  ((exists r, fourier_band_block (VNd s) f c c' ta = Ok r) <-> finite c /\ finite c').
Proof.
  intros H Hf Hn. assert (Z : finite (Fin 0)) by (eexists; reflexivity).
  unfold fourier_low_pass, fourier_high_pass, fourier_band_pass, fourier_band_block.
  change (@ofZ Num.fl NumFl 0%Z) with (Fin 0). repeat split; intros; rewrite ?filter_works in *; tauto.
Qed.
