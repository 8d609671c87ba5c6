(** API-level properties of the Fourier filters. *)
From Coq Require Import Reals List Arith ZArith Lia Lra Bool String Classical.
From Verif Require Import PyBase Num Arr ArrFacts NumFacts PyFacts ListFacts ChunkFacts Hybrid Spherical Fourier SpecSum SumFacts SpecFourier FourierDft FourierFacts FourierApi.
Import ListNotations.
Local Open Scope R_scope.

(** ** spectra *)
Lemma spectrum_determines n x y : (forall k, (k < n)%nat -> same_bin n x y k) -> forall t, (t < n)%nat -> x t = y t.
Proof.
  intros H t Ht. rewrite <- (filt_all n x t), <- (filt_all n y t) by auto. unfold filt. f_equal. apply bigsum_ext. intros k Hk.
  destruct (H k Hk) as [-> ->]. reflexivity.
Qed.
Lemma filters_determined n Keep x y y' : filters n Keep x y -> filters n Keep x y' -> forall t, (t < n)%nat -> y t = y' t.
Proof.
  intros H H'. apply spectrum_determines. intros k Hk. unfold same_bin. destruct (H k Hk) as [A B], (H' k Hk) as [A' B'].
  destruct (classic (Keep k)) as [K|K].
  - destruct (A K) as [-> ->], (A' K) as [-> ->]. auto.
  - destruct (B K) as [-> ->], (B' K) as [-> ->]. auto.
Qed.

Section One.
  Variables (s : arr fl) (F : list nat -> R) (f : R) (ta : Z) (ax : nat).
  Hypothesis Hs : sampled s F f ta ax.
  Notation n0 := (nth 0%nat (shp s) 0%nat).
  Notation n := (nth ax (shp s) 0%nat).
  Notation w := (width f (nth 0%nat (shp s) 0%nat)).

  Lemma w_pos : 0 < w. Proof using Hs. destruct Hs. apply width_pos; auto. Qed.

  Lemma filter_nd cl ch fl : 0 <= cl -> 0 <= ch -> exists r,
    fourier_filter (VNd s) (Fin f) (Fin cl) (Fin ch) ta fl = Ok (VNd r) /\ shp r = shp s /\ holds r (fout s F f cl ch ax fl).
  Proof using Hs.
    intros Hl Hh. destruct Hs as [V A L0 L R]. destruct (filter_arr_fin s F f cl ch ta ax fl V A L0 L R Hl Hh) as (r & E & S & H).
    exists r. cbn [fourier_filter]. rewrite E. cbn [bind]. auto.
  Qed.
  Lemma sampled_out r cl ch fl : shp r = shp s -> holds r (fout s F f cl ch ax fl) -> sampled r (fout s F f cl ch ax fl) f ta ax.
  Proof using Hs. intros E H. destruct Hs as [V A L0 L R]. split; unfold ndim in *; rewrite ?E; auto. Qed.

  (** every bin is kept or removed, together with its mirror image *)
  Lemma filter_pairs cl ch fl : 0 <= cl -> 0 <= ch -> exists r G (Keep : nat -> Prop),
    fourier_filter (VNd s) (Fin f) (Fin cl) (Fin ch) ta fl = Ok (VNd r) /\ shp r = shp s /\ holds r G /\
    (forall k, (0 < k < n)%nat -> (Keep k <-> Keep (n - k)%nat)) /\
    forall i, inb (shp s) i -> filters n Keep (column F i ax) (column G i ax).
  Proof using Hs.
    intros Hl Hh. destruct (filter_nd cl ch fl Hl Hh) as (r & E & S & H). exists r, (fout s F f cl ch ax fl), (fun k => fmask s f cl ch ax fl k = true).
    split; [auto|]. split; [auto|]. split; [auto|]. split.
    - intros k Hk. pose proof (fmask_sym s f cl ch ax fl k ltac:(lia)) as Y. unfold mir in Y. destruct (Nat.eqb_spec k 0); [lia|]. rewrite Y. tauto.
    - intros i Hi. apply (fout_filters s F f cl ch ta ax fl (sm_axis _ _ _ _ _ Hs) i Hi).
  Qed.

  (** keep predicates in terms of frequency *)
  Definition Low (cl : R) (k : nat) : Prop := (INR (cycles n k) + 1) * w <= cl.
  Definition High (ch : R) (k : nat) : Prop := ch <= INR (cycles n k) * w.
  Definition Pass (cl ch : R) (k : nat) : Prop := cl < (INR (cycles n k) + 1) * w /\ INR (cycles n k) * w < ch.
  Definition InBand (cl ch : R) (m : nat) : Prop := cl < (INR m + 1) * w /\ INR m * w < ch.

  Lemma low_iff cl k : 0 <= cl -> (klow (loi f n0 cl) n k = true <-> Low cl k).
  Proof using Hs. intros. unfold klow, Low. rewrite Nat.ltb_lt. apply loi_lt; auto. apply w_pos. Qed.
  Lemma high_iff ch k : 0 <= ch -> (khigh (hii f n0 ch) n k = true <-> High ch k).
  Proof using Hs. intros. unfold khigh, High. rewrite Nat.leb_le. apply hii_le; auto. apply w_pos. Qed.
  Lemma in_iff cl ch m : 0 <= cl -> 0 <= ch -> (Nat.leb (loi f n0 cl) m && Nat.ltb m (hii f n0 ch) = true <-> InBand cl ch m).
  Proof using Hs.
    intros Hl Hh. unfold InBand. rewrite andb_true_iff, Nat.leb_le, Nat.ltb_lt.
    pose proof (loi_lt f n0 cl m w_pos Hl) as A. pose proof (hii_le f n0 ch m w_pos Hh) as B.
    split; intros [H1 H2]; split.
    - apply Rnot_le_lt. intros Q. apply A in Q. lia.
    - apply Rnot_le_lt. intros Q. apply B in Q. lia.
    - destruct (le_lt_dec (loi f n0 cl) m); auto. apply A in l. lra.
    - destruct (le_lt_dec (hii f n0 ch) m); auto. apply B in l. lra.
  Qed.
  Lemma pass_iff cl ch k : 0 <= cl -> 0 <= ch -> (kpass (loi f n0 cl) (hii f n0 ch) n k = true <-> Pass cl ch k).
  Proof using Hs. intros. unfold kpass, Pass. apply in_iff; auto. Qed.
  Lemma block_iff cl ch k : 0 <= cl -> 0 <= ch ->
    (kblock (loi f n0 cl) (hii f n0 ch) n k = true <-> ~ InBand cl ch k /\ ~ InBand cl ch (n - k)%nat).
  Proof using Hs.
    intros. unfold kblock. rewrite andb_true_iff, !negb_true_iff, <- !not_true_iff_false, !in_iff by auto. reflexivity.
  Qed.
  Lemma block_nyquist cl ch k : 0 <= cl -> 0 <= ch -> ch <= INR n / 2 * w -> (k < n)%nat ->
    (~ InBand cl ch k /\ ~ InBand cl ch (n - k)%nat <-> ~ Pass cl ch k).
  Proof using Hs.
    intros Hl Hh Hny Hk. pose proof w_pos as Hw. unfold InBand, Pass, cycles.
    assert (X : forall m m', (m + m' = n)%nat -> (m' < m)%nat -> ~ (cl < (INR m + 1) * w /\ INR m * w < ch)).
    { intros m m' E L [_ Q]. assert (INR n / 2 <= INR m).
      { apply lt_INR in L. rewrite <- E, plus_INR. lra. }
      assert (INR n / 2 * w <= INR m * w) by (apply Rmult_le_compat_r; lra). lra. }
    destruct (le_lt_dec k (n - k)) as [L|L].
    - rewrite Nat.min_l by auto. split; [tauto|]. intros Q. split; auto.
      destruct (Nat.eq_dec k (n - k)) as [<-|Hne]; auto. apply (X (n - k)%nat k); lia.
    - rewrite Nat.min_r by lia. split; [tauto|]. intros Q. split; auto. apply (X k (n - k)%nat); lia.
  Qed.

  Lemma kall_iff fl cl ch k : 0 <= cl -> 0 <= ch -> (kall fl (loi f n0 cl) (hii f n0 ch) n k = true <->
    (f_low fl = true -> Low cl k) /\ (f_high fl = true -> High ch k) /\ (f_pass fl = true -> Pass cl ch k) /\
    (f_block fl = true -> ~ InBand cl ch k /\ ~ InBand cl ch (n - k)%nat)).
  Proof using Hs.
    intros Hl Hh. unfold kall. rewrite !andb_true_iff.
    assert (X : forall (b c : bool) (P : Prop), (c = true <-> P) -> ((if b then c else true) = true <-> (b = true -> P))).
    { intros [|] c P E; [rewrite E; tauto|]. split; [discriminate|reflexivity]. }
    rewrite !(X _ _ _ (low_iff cl k Hl)), !(X _ _ _ (high_iff ch k Hh)), !(X _ _ _ (pass_iff cl ch k Hl Hh)), !(X _ _ _ (block_iff cl ch k Hl Hh)). tauto.
  Qed.
  (** all flag combinations *)
  Lemma filter_flags cl ch fl : 0 <= cl -> 0 <= ch -> exists r G,
    fourier_filter (VNd s) (Fin f) (Fin cl) (Fin ch) ta fl = Ok (VNd r) /\ shp r = shp s /\ holds r G /\
    forall i, inb (shp s) i -> filters n (fun k =>
      (f_low fl = true -> Low cl k) /\ (f_high fl = true -> High ch k) /\ (f_pass fl = true -> Pass cl ch k) /\
      (f_block fl = true -> ~ InBand cl ch k /\ ~ InBand cl ch (n - k)%nat)) (column F i ax) (column G i ax).
  Proof using Hs.
    intros Hl Hh. destruct (filter_nd cl ch fl Hl Hh) as (r & E & S & H). exists r, (fout s F f cl ch ax fl). split; [auto|]. split; [auto|]. split; [auto|].
    intros i Hi. eapply filters_iff; [|apply (fout_filters s F f cl ch ta ax fl (sm_axis _ _ _ _ _ Hs) i Hi)].
    intros k Hk. apply kall_iff; auto.
  Qed.
  Lemma low_pass_spec cl : 0 <= cl -> exists r G,
    fourier_low_pass (VNd s) (Fin f) (Fin cl) ta = Ok (VNd r) /\ shp r = shp s /\ holds r G /\
    forall i, inb (shp s) i -> filters n (fun k => (INR (cycles n k) + 1) * w <= cl) (column F i ax) (column G i ax).
  Proof using Hs.
    intros Hl. destruct (filter_flags cl 0 (mkFlags true false false false) Hl (Rle_refl 0)) as (r & G & E & S & H & Q).
    exists r, G. split; [exact E|]. split; [auto|]. split; [auto|]. intros i Hi. eapply filters_iff; [|exact (Q i Hi)]. intros k Hk. cbn. unfold Low. intuition congruence.
  Qed.
  Lemma high_pass_spec ch : 0 <= ch -> exists r G,
    fourier_high_pass (VNd s) (Fin f) (Fin ch) ta = Ok (VNd r) /\ shp r = shp s /\ holds r G /\
    forall i, inb (shp s) i -> filters n (fun k => ch <= INR (cycles n k) * w) (column F i ax) (column G i ax).
  Proof using Hs.
    intros Hl. destruct (filter_flags 0 ch (mkFlags false true false false) (Rle_refl 0) Hl) as (r & G & E & S & H & Q).
    exists r, G. split; [exact E|]. split; [auto|]. split; [auto|]. intros i Hi. eapply filters_iff; [|exact (Q i Hi)]. intros k Hk. cbn. unfold High. intuition congruence.
  Qed.
  Lemma band_pass_spec cl ch : 0 <= cl -> 0 <= ch -> exists r G,
    fourier_band_pass (VNd s) (Fin f) (Fin cl) (Fin ch) ta = Ok (VNd r) /\ shp r = shp s /\ holds r G /\
    forall i, inb (shp s) i -> filters n (fun k => cl < (INR (cycles n k) + 1) * w /\ INR (cycles n k) * w < ch) (column F i ax) (column G i ax).
  Proof using Hs.
    intros Hl Hh. destruct (filter_flags cl ch (mkFlags false false true false) Hl Hh) as (r & G & E & S & H & Q).
    exists r, G. split; [exact E|]. split; [auto|]. split; [auto|]. intros i Hi. eapply filters_iff; [|exact (Q i Hi)]. intros k Hk. cbn. unfold Pass. intuition congruence.
  Qed.
  Lemma band_block_spec cl ch : 0 <= cl -> 0 <= ch -> ch <= INR n / 2 * w -> exists r G,
    fourier_band_block (VNd s) (Fin f) (Fin cl) (Fin ch) ta = Ok (VNd r) /\ shp r = shp s /\ holds r G /\
    forall i, inb (shp s) i -> filters n (fun k => ~ (cl < (INR (cycles n k) + 1) * w /\ INR (cycles n k) * w < ch)) (column F i ax) (column G i ax).
  Proof using Hs.
    intros Hl Hh Hny. destruct (filter_flags cl ch (mkFlags false false false true) Hl Hh) as (r & G & E & S & H & Q).
    exists r, G. split; [exact E|]. split; [auto|]. split; [auto|]. intros i Hi. eapply filters_iff; [|exact (Q i Hi)]. intros k Hk. cbn.
    pose proof (block_nyquist cl ch k Hl Hh Hny Hk) as B. unfold Pass in B. intuition congruence.
  Qed.
  Lemma band_block_any cl ch : 0 <= cl -> 0 <= ch -> exists r G,
    fourier_band_block (VNd s) (Fin f) (Fin cl) (Fin ch) ta = Ok (VNd r) /\ shp r = shp s /\ holds r G /\
    forall i, inb (shp s) i -> filters n (fun k => ~ (cl < (INR k + 1) * w /\ INR k * w < ch) /\
                                                   ~ (cl < (INR (n - k) + 1) * w /\ INR (n - k) * w < ch)) (column F i ax) (column G i ax).
  Proof using Hs.
    intros Hl Hh. destruct (filter_flags cl ch (mkFlags false false false true) Hl Hh) as (r & G & E & S & H & Q).
    exists r, G. split; [exact E|]. split; [auto|]. split; [auto|]. intros i Hi. eapply filters_iff; [|exact (Q i Hi)]. intros k Hk. cbn. unfold InBand. intuition congruence.
  Qed.

  (** idempotence *)
  Lemma filter_idem cl ch fl : 0 <= cl -> 0 <= ch -> exists r r' G,
    fourier_filter (VNd s) (Fin f) (Fin cl) (Fin ch) ta fl = Ok (VNd r) /\
    fourier_filter (VNd r) (Fin f) (Fin cl) (Fin ch) ta fl = Ok (VNd r') /\ shp r' = shp r /\ holds r G /\ holds r' G.
  Proof using Hs.
    intros Hl Hh. destruct (filter_nd cl ch fl Hl Hh) as (r & E & S & H).
    destruct Hs as [V A L0 L R]. set (G := fout s F f cl ch ax fl).
    assert (A' : axis_of (ndim r) ta ax) by (unfold ndim; rewrite S; auto).
    destruct (filter_arr_fin r G f cl ch ta ax fl H A' ltac:(rewrite S; auto) ltac:(rewrite S; auto) R Hl Hh) as (r' & E' & S' & H').
    exists r, r', G. split; [auto|]. split; [cbn [fourier_filter]; rewrite E'; reflexivity|]. split; [auto|]. split; [auto|].
    intros i Hi. rewrite (H' i Hi). f_equal. unfold fout, fmask. rewrite S. rewrite S', S in Hi.
    rewrite (filt_ext n _ (kall fl (loi f n0 cl) (hii f n0 ch) n) _ (filt n (kall fl (loi f n0 cl) (hii f n0 ch) n) (column F i ax))) by
      (auto; intros; apply (fout_column s F f cl ch ta ax fl A i); auto).
    rewrite filt_idem by apply kall_symmetric. reflexivity.
  Qed.
End One.

(** linearity *)
Lemma filter_linear s1 s2 s3 F1 F2 F3 f ta ax a b cl ch fl :
  sampled s1 F1 f ta ax -> sampled s2 F2 f ta ax -> sampled s3 F3 f ta ax -> shp s2 = shp s1 -> shp s3 = shp s1 ->
  (forall i, inb (shp s1) i -> F3 i = a * F1 i + b * F2 i) -> 0 <= cl -> 0 <= ch -> exists r1 r2 r3 G1 G2 G3,
  fourier_filter (VNd s1) (Fin f) (Fin cl) (Fin ch) ta fl = Ok (VNd r1) /\ holds r1 G1 /\
  fourier_filter (VNd s2) (Fin f) (Fin cl) (Fin ch) ta fl = Ok (VNd r2) /\ holds r2 G2 /\
  fourier_filter (VNd s3) (Fin f) (Fin cl) (Fin ch) ta fl = Ok (VNd r3) /\ holds r3 G3 /\
  shp r1 = shp s1 /\ shp r2 = shp s1 /\ shp r3 = shp s1 /\
  forall i, inb (shp s1) i -> G3 i = a * G1 i + b * G2 i.
Proof.
  intros H1 H2 H3 E2 E3 HF Hl Hh.
  destruct (filter_nd s1 F1 f ta ax H1 cl ch fl Hl Hh) as (r1 & R1 & S1 & Q1).
  destruct (filter_nd s2 F2 f ta ax H2 cl ch fl Hl Hh) as (r2 & R2 & S2 & Q2).
  destruct (filter_nd s3 F3 f ta ax H3 cl ch fl Hl Hh) as (r3 & R3 & S3 & Q3).
  exists r1, r2, r3, (fout s1 F1 f cl ch ax fl), (fout s2 F2 f cl ch ax fl), (fout s3 F3 f cl ch ax fl).
  rewrite S1, S2, S3. do 9 (split; [first [assumption|reflexivity]|]).
  intros i Hi. unfold fout, fmask. rewrite E2, E3. rewrite <- filt_linear. apply filt_ext; auto. intros t Ht. unfold column. apply HF.
  rewrite <- (upd_self (shp s1) ax). apply inb_upd; auto.
Qed.

(** waves *)
Lemma filters_wave n Keep k a b x y : (0 < n)%nat -> (k < n)%nat -> filters n Keep x y -> (forall j, (j < n)%nat -> cycles n j = cycles n k -> (Keep j <-> Keep k)) ->
  (forall t, (t < n)%nat -> x t = wave n k a b t) ->
  forall t, (t < n)%nat -> (Keep k -> y t = wave n k a b t) /\ (~ Keep k -> y t = 0).
Proof.
  intros Hn Hk Hf Hc Hx.
  assert (Sx : forall j, spec_re n x j = spec_re n (wave n k a b) j /\ spec_im n x j = spec_im n (wave n k a b) j) by (intros; apply spec_ext; auto).
  assert (Hm : cycles n (mir n k) = cycles n k) by (unfold mir, cycles; destruct (Nat.eqb_spec k 0); lia).
  intros t Ht. split; intros K.
  - rewrite <- Hx by auto. symmetry. revert t Ht. apply spectrum_determines. intros j Hj. unfold same_bin. destruct (Hf j Hj) as [A B].
    destruct (classic (Keep j)) as [J|J]; [apply A; auto|]. destruct (B J) as [-> ->]. destruct (Sx j) as [-> ->].
    destruct (wave_spec n k a b j Hk Hj) as [-> ->]; auto.
    + intros ->. auto.
    + intros ->. apply J, Hc; auto.
  - transitivity ((fun _ : nat => 0) t); [|reflexivity]. revert t Ht. apply spectrum_determines. intros j Hj. unfold same_bin.
    assert (Z0 : spec_re n (fun _ => 0) j = 0 /\ spec_im n (fun _ => 0) j = 0) by (split; apply bigsum_0; intros; ring).
    destruct Z0 as [-> ->]. destruct (Hf j Hj) as [A B]. destruct (classic (Keep j)) as [J|J].
    + destruct (A J) as [-> ->]. destruct (Sx j) as [-> ->]. destruct (wave_spec n k a b j Hk Hj) as [-> ->]; auto.
      * intros ->. auto.
      * intros ->. apply K. apply (Hc (mir n k)); auto.
    + destruct (B J) as [-> ->]. auto.
Qed.
