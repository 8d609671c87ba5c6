(** Lemmas for C125: a Fourier filter is the orthogonal projection onto the frequencies it keeps, and it has no phase. *)
From Coq Require Import Reals List Arith Lia Lra Bool ZArith.
From Verif Require Import PyBase Num Arr ArrFacts NumFacts PyFacts ListFacts ChunkFacts Hybrid Spherical Fourier SpecSum SumFacts SpecFourier FourierDft FourierFacts FourierApi FourierMore.
Import ListNotations.
Local Open Scope R_scope.

Definition ker (n : nat) (keep : nat -> bool) (t s : nat) : R := bigsum n (fun k => b2r (keep k) * cos (turn n k t - turn n k s)).
Lemma filt_ker n keep x t : filt n keep x t = bigsum n (fun s => x s * ker n keep t s) / INR n.
Proof.
  unfold filt, ker. f_equal.
  rewrite (bigsum_ext n (fun s => x s * _) (fun s => bigsum n (fun k => x s * (b2r (keep k) * cos (turn n k t - turn n k s))))) by (intros; symmetry; apply bigsum_scal).
  rewrite bigsum_swap. apply bigsum_ext. intros k _. unfold spec_re, spec_im.
  rewrite <- !bigsum_scal_r, <- bigsum_minus, <- bigsum_scal. apply bigsum_ext. intros s _. rewrite cos_minus. ring.
Qed.
Lemma ker_sym n keep t s : ker n keep t s = ker n keep s t.
Proof. unfold ker. apply bigsum_ext. intros k _. replace (turn n k t - turn n k s) with (- (turn n k s - turn n k t)) by ring. rewrite cos_neg. reflexivity. Qed.

Lemma filt_adjoint n keep x y : bigsum n (fun t => y t * filt n keep x t) = bigsum n (fun t => filt n keep y t * x t).
Proof.
  transitivity (bigsum n (fun t => bigsum n (fun s => y t * x s * ker n keep t s / INR n))).
  - apply bigsum_ext. intros t _. rewrite filt_ker. unfold Rdiv. rewrite bigsum_scal_r.
    rewrite (bigsum_ext n (fun i => y t * x i * _) (fun i => y t * (x i * ker n keep t i))) by (intros; ring). rewrite bigsum_scal. ring.
  - rewrite bigsum_swap. apply bigsum_ext. intros t _. rewrite filt_ker. unfold Rdiv. rewrite bigsum_scal_r.
    rewrite (bigsum_ext n (fun i => y i * x t * _) (fun i => x t * (y i * ker n keep t i))) by (intros; rewrite ker_sym; ring). rewrite bigsum_scal. ring.
Qed.

(** any signal z left unchanged by the filter is no closer to x than the filtered x *)
Lemma filt_pythagoras n keep x z : symmetric n keep -> (forall t, (t < n)%nat -> filt n keep z t = z t) ->
  bigsum n (fun t => (x t - z t) * (x t - z t)) =
  bigsum n (fun t => (x t - filt n keep x t) * (x t - filt n keep x t)) + bigsum n (fun t => (filt n keep x t - z t) * (filt n keep x t - z t)).
Proof.
  intros Hs Hz. set (y := filt n keep x). set (g := fun t => y t - z t).
  assert (Hg : forall t, (t < n)%nat -> filt n keep g t = g t).
  { intros t Ht. unfold g. rewrite (filt_ext n keep keep _ (fun s => 1 * y s + (-1) * z s)) by (auto; intros; ring).
    rewrite filt_linear, Hz by auto. unfold y at 1. rewrite filt_idem by auto. unfold y. ring. }
  assert (Hc : bigsum n (fun t => g t * (x t - y t)) = 0).
  { rewrite (bigsum_ext n _ (fun t => g t * x t - g t * y t)) by (intros; ring). rewrite bigsum_minus.
    unfold y at 1. rewrite (filt_adjoint n keep x g). rewrite (bigsum_ext n (fun t => filt n keep g t * x t) (fun t => g t * x t)) by (intros; rewrite Hg by auto; reflexivity). ring. }
  rewrite <- bigsum_plus. apply Rminus_diag_uniq. rewrite <- bigsum_minus.
  rewrite (bigsum_ext n _ (fun t => 2 * (g t * (x t - y t)))) by (intros; unfold g, y; ring). rewrite bigsum_scal, Hc. ring.
Qed.

(** a rearrangement of the samples that keeps their circular distances *)
Lemma filt_moved n keep x x' sg : (forall f, bigsum n (fun t => f (sg t)) = bigsum n f) ->
  (forall k t s, (k < n)%nat -> (t < n)%nat -> (s < n)%nat -> cos (turn n k (sg t) - turn n k (sg s)) = cos (turn n k t - turn n k s)) ->
  (forall t, (t < n)%nat -> x' t = x (sg t)) -> forall t, (t < n)%nat -> filt n keep x' t = filt n keep x (sg t).
Proof.
  intros Hp Hc Hx t Ht. rewrite !filt_ker. f_equal. rewrite <- (Hp (fun s => x s * ker n keep (sg t) s)). apply bigsum_ext. intros s Hs.
  rewrite Hx by auto. f_equal. unfold ker. apply bigsum_ext. intros k Hk. rewrite Hc by auto. reflexivity.
Qed.
Lemma bigsum_roll n d f : (d <= n)%nat -> bigsum n (fun t => f ((t + d) mod n)%nat) = bigsum n f.
Proof.
  intros Hd. replace n with ((n - d) + d)%nat at 1 by lia. rewrite bigsum_app. replace (bigsum n f) with (bigsum (d + (n - d)) f) by (f_equal; lia).
  rewrite bigsum_app, Rplus_comm. f_equal; apply bigsum_ext; intros i Hi; f_equal.
  - replace (n - d + i + d)%nat with (i + 1 * n)%nat by lia. rewrite Nat.mod_add by lia. apply Nat.mod_small. lia.
  - rewrite Nat.mod_small by lia. lia.
Qed.
Lemma bigsum_roll_any n d f : bigsum n (fun t => f ((t + d) mod n)%nat) = bigsum n f.
Proof.
  destruct n as [|n]; [reflexivity|]. rewrite <- (bigsum_roll (S n) (d mod S n) f) by (apply Nat.lt_le_incl, Nat.mod_upper_bound; lia).
  apply bigsum_ext. intros t _. f_equal. rewrite Nat.add_mod_idemp_r by lia. reflexivity.
Qed.
Lemma turn_mod n k t : (0 < n)%nat -> exists z, turn n k t = turn n k (t mod n) + 2 * PI * IZR z.
Proof.
  intros Hn. exists (Z.of_nat (k * (t / n))). rewrite <- INR_IZR_INZ. unfold turn.
  assert (E : (k * t = k * (t mod n) + k * (t / n) * n)%nat) by (rewrite (Nat.div_mod t n) at 1 by lia; ring).
  rewrite E, plus_INR, !mult_INR. field. apply not_0_INR. lia.
Qed.
Lemma cos_turn_mod n k t u : (0 < n)%nat -> cos (turn n k (t mod n) - u) = cos (turn n k t - u).
Proof. intros Hn. destruct (turn_mod n k t Hn) as [z ->]. replace (turn n k (t mod n) + 2 * PI * IZR z - u) with (turn n k (t mod n) - u + 2 * PI * IZR z) by ring. symmetry. apply cos_period_Z. Qed.
Lemma cos_turn_mod' n k t u : (0 < n)%nat -> cos (u - turn n k (t mod n)) = cos (u - turn n k t).
Proof.
  intros Hn. rewrite <- (cos_neg (u - turn n k (t mod n))), <- (cos_neg (u - turn n k t)). rewrite !Ropp_minus_distr. apply cos_turn_mod; auto.
Qed.
Lemma turn_plus n k t d : turn n k (t + d) = turn n k t + turn n k d.
Proof. unfold turn. rewrite Nat.mul_add_distr_l, plus_INR. unfold Rdiv. ring. Qed.
Lemma filt_roll n keep x x' d : (0 < n)%nat -> (forall t, (t < n)%nat -> x' t = x ((t + d) mod n)%nat) ->
  forall t, (t < n)%nat -> filt n keep x' t = filt n keep x ((t + d) mod n)%nat.
Proof.
  intros Hn Hx. apply filt_moved; auto.
  - intros f. apply bigsum_roll_any.
  - intros k t s _ _ _. rewrite cos_turn_mod, cos_turn_mod', !turn_plus by auto. f_equal. ring.
Qed.
Lemma filt_reversed n keep x x' : (forall t, (t < n)%nat -> x' t = x (n - 1 - t)%nat) ->
  forall t, (t < n)%nat -> filt n keep x' t = filt n keep x (n - 1 - t)%nat.
Proof.
  intros Hx. apply filt_moved; auto.
  - intros f. symmetry. apply bigsum_rev.
  - intros k t s Hk Ht Hs. assert (E : forall u, (u < n)%nat -> turn n k (n - 1 - u) = turn n k (n - 1) - turn n k u).
    { intros u Hu. replace (turn n k (n - 1)) with (turn n k ((n - 1 - u) + u)) by (f_equal; lia). rewrite turn_plus. ring. }
    rewrite !E by auto. rewrite <- cos_neg. f_equal. ring.
Qed.

(** the mean *)
Lemma filt_mean n keep x : (0 < n)%nat -> symmetric n keep -> bigsum n (filt n keep x) = b2r (keep 0%nat) * bigsum n x.
Proof.
  intros Hn Hs. destruct (filt_spec n keep x 0 Hs Hn) as [E _]. unfold spec_re in E.
  assert (Z0 : forall t, cos (turn n 0 t) = 1) by (intros; unfold turn; cbn [Nat.mul INR]; replace (2 * PI * 0 / INR n) with 0 by (unfold Rdiv; ring); apply cos_0).
  rewrite (bigsum_ext n _ (filt n keep x)) in E by (intros; rewrite Z0; ring).
  rewrite (bigsum_ext n (fun t => x t * _) x) in E by (intros; rewrite Z0; ring). exact E.
Qed.

Section Api.
  Variables (s : arr fl) (F : list nat -> R) (f : R) (ta : Z) (ax : nat).
  Hypothesis Hs : sampled s F f ta ax.
  Let n := nth ax (shp s) 0%nat.

  Lemma c125_energy cl ch fg : 0 <= cl -> 0 <= ch -> exists r G,
    fourier_filter (VNd s) (Fin f) (Fin cl) (Fin ch) ta fg = Ok (VNd r) /\ shp r = shp s /\ holds r G /\
    forall i, inb (shp s) i ->
      bigsum n (fun t => column F i ax t * column F i ax t) =
      bigsum n (fun t => column G i ax t * column G i ax t) +
      bigsum n (fun t => (column F i ax t - column G i ax t) * (column F i ax t - column G i ax t)).
  Proof using Hs.
    intros Hl Hh. destruct (filter_nd s F f ta ax Hs cl ch fg Hl Hh) as (r & E & S & H). destruct Hs as [V A L0 L R].
    exists r, (fout s F f cl ch ax fg). split; [auto|]. split; [auto|]. split; [auto|]. intros i Hi.
    pose proof (fun t => fout_column s F f cl ch ta ax fg A i t Hi) as C.
    pose proof (filt_pythagoras n (fmask s f cl ch ax fg) (column F i ax) (fun _ => 0) (fmask_sym s f cl ch ax fg)) as P.
    rewrite (bigsum_ext n (fun t => (column F i ax t - 0) * _) (fun t => column F i ax t * column F i ax t)) in P by (intros; ring).
    rewrite P by (intros; apply filt_zero; intros; unfold spec_re, spec_im; split; apply bigsum_0; intros; ring).
    rewrite Rplus_comm. f_equal; apply bigsum_ext; intros t Ht; rewrite C; unfold n; ring.
  Qed.

  Lemma c125_closest s2 Z cl ch fg : 0 <= cl -> 0 <= ch -> sampled s2 Z f ta ax -> shp s2 = shp s ->
    (exists r2, fourier_filter (VNd s2) (Fin f) (Fin cl) (Fin ch) ta fg = Ok (VNd r2) /\ holds r2 Z /\ shp r2 = shp s2) ->
    exists r G,
    fourier_filter (VNd s) (Fin f) (Fin cl) (Fin ch) ta fg = Ok (VNd r) /\ shp r = shp s /\ holds r G /\
    forall i, inb (shp s) i ->
      bigsum n (fun t => (column F i ax t - column G i ax t) * (column F i ax t - column G i ax t)) <=
      bigsum n (fun t => (column F i ax t - column Z i ax t) * (column F i ax t - column Z i ax t)).
  Proof using Hs.
    intros Hl Hh H2 E2 (r2 & R2 & Q2 & T2). destruct (filter_nd s F f ta ax Hs cl ch fg Hl Hh) as (r & E & S & H).
    destruct (filter_nd s2 Z f ta ax H2 cl ch fg Hl Hh) as (r2' & E2' & S2 & Q2'). rewrite R2 in E2'. injection E2' as <-.
    destruct Hs as [V A L0 L R]. destruct H2 as [V2 A2 _ _ _].
    exists r, (fout s F f cl ch ax fg). split; [auto|]. split; [auto|]. split; [auto|]. intros i Hi.
    pose proof (fun t => fout_column s F f cl ch ta ax fg A i t Hi) as C.
    assert (Hi2 : inb (shp s2) i) by (rewrite E2; auto).
    assert (U : forall t, (t < n)%nat -> filt n (fmask s f cl ch ax fg) (column Z i ax) t = column Z i ax t).
    { intros t Ht. assert (B : inb (shp s2) (upd i ax t)) by (rewrite <- (upd_self (shp s2) ax); apply inb_upd; rewrite ?E2; auto).
      pose proof (Q2 (upd i ax t)) as X1. pose proof (Q2' (upd i ax t)) as X2. rewrite T2 in X1, X2. specialize (X1 B). specialize (X2 B).
      rewrite X1 in X2. injection X2 as X2. unfold column at 2. rewrite X2. symmetry.
      pose proof (fout_column s2 Z f cl ch ta ax fg A2 i t Hi2) as X3. unfold column at 1 in X3. rewrite X3. unfold fmask. rewrite E2. reflexivity. }
    rewrite (filt_pythagoras n (fmask s f cl ch ax fg) (column F i ax) (column Z i ax) (fmask_sym s f cl ch ax fg) U).
    rewrite (bigsum_ext n (fun t => (column F i ax t - column (fout s F f cl ch ax fg) i ax t) * _)
      (fun t => (column F i ax t - filt n (fmask s f cl ch ax fg) (column F i ax) t) * (column F i ax t - filt n (fmask s f cl ch ax fg) (column F i ax) t))) by (intros; rewrite C; reflexivity).
    match goal with |- ?a <= ?a + ?b => assert (0 <= b) by (apply bigsum_nonneg; intros; apply Rle_0_sqr); lra end.
  Qed.

  Lemma c125_moved s2 F2 cl ch fg sg : 0 <= cl -> 0 <= ch -> sampled s2 F2 f ta ax -> shp s2 = shp s ->
    (forall x x', (forall t, (t < n)%nat -> x' t = x (sg t)) -> forall t, (t < n)%nat -> forall keep, filt n keep x' t = filt n keep x (sg t)) ->
    (forall t, (t < n)%nat -> (sg t < n)%nat) ->
    (forall i, inb (shp s) i -> F2 i = F (upd i ax (sg (nth ax i 0%nat)))) -> exists r r2 G,
    fourier_filter (VNd s) (Fin f) (Fin cl) (Fin ch) ta fg = Ok (VNd r) /\ shp r = shp s /\ holds r G /\
    fourier_filter (VNd s2) (Fin f) (Fin cl) (Fin ch) ta fg = Ok (VNd r2) /\ shp r2 = shp s /\
    holds r2 (fun i => G (upd i ax (sg (nth ax i 0%nat)))).
  Proof using Hs.
    intros Hl Hh H2 E2 K B M. destruct (filter_nd s F f ta ax Hs cl ch fg Hl Hh) as (r & E & S & H).
    destruct (filter_nd s2 F2 f ta ax H2 cl ch fg Hl Hh) as (r2 & E2' & S2 & Q2). destruct Hs as [V A L0 L R]. destruct H2 as [V2 A2 _ _ _].
    exists r, r2, (fout s F f cl ch ax fg). split; [auto|]. split; [auto|]. split; [auto|]. split; [auto|]. split; [congruence|].
    intros i Hi. rewrite (Q2 i Hi). f_equal. rewrite S2, E2 in Hi. unfold ndim in A. destruct A as [Ha _].
    pose proof (inb_length _ _ Hi) as Hlen.
    assert (Hlt : (nth ax i 0 < n)%nat) by (apply (proj2 (proj1 (inb_nth _ _) Hi)); auto).
    unfold fout, fmask. rewrite E2. rewrite nth_upd_same by (rewrite Hlen; auto).
    rewrite (filt_ext n _ (kall fg (loi f (nth 0 (shp s) 0%nat) cl) (hii f (nth 0 (shp s) 0%nat) ch) n) (column F (upd i ax (sg (nth ax i 0%nat))) ax) (column F i ax)) by (auto; intros; apply column_upd).
    apply K; auto. intros t Ht. unfold column. rewrite M by (rewrite <- (upd_self (shp s) ax); apply inb_upd; auto).
    rewrite upd_upd, nth_upd_same by (rewrite Hlen; auto). reflexivity.
  Qed.
  Lemma c125_delay s2 F2 d cl ch fg : 0 <= cl -> 0 <= ch -> sampled s2 F2 f ta ax -> shp s2 = shp s ->
    (forall i, inb (shp s) i -> F2 i = F (upd i ax ((nth ax i 0 + d) mod n)%nat)) -> exists r r2 G,
    fourier_filter (VNd s) (Fin f) (Fin cl) (Fin ch) ta fg = Ok (VNd r) /\ shp r = shp s /\ holds r G /\
    fourier_filter (VNd s2) (Fin f) (Fin cl) (Fin ch) ta fg = Ok (VNd r2) /\ shp r2 = shp s /\
    holds r2 (fun i => G (upd i ax ((nth ax i 0 + d) mod n)%nat)).
  Proof using Hs.
    intros Hl Hh H2 E2 M. apply (c125_moved s2 F2 cl ch fg (fun t => ((t + d) mod n)%nat)); auto.
    - intros x x' Hx t Ht keep. apply filt_roll; auto. lia.
    - intros t Ht. apply Nat.mod_upper_bound. lia.
  Qed.
  Lemma c125_reversal s2 F2 cl ch fg : 0 <= cl -> 0 <= ch -> sampled s2 F2 f ta ax -> shp s2 = shp s ->
    (forall i, inb (shp s) i -> F2 i = F (upd i ax (n - 1 - nth ax i 0)%nat)) -> exists r r2 G,
    fourier_filter (VNd s) (Fin f) (Fin cl) (Fin ch) ta fg = Ok (VNd r) /\ shp r = shp s /\ holds r G /\
    fourier_filter (VNd s2) (Fin f) (Fin cl) (Fin ch) ta fg = Ok (VNd r2) /\ shp r2 = shp s /\
    holds r2 (fun i => G (upd i ax (n - 1 - nth ax i 0)%nat)).
  Proof using Hs.
    intros Hl Hh H2 E2 M. apply (c125_moved s2 F2 cl ch fg (fun t => (n - 1 - t)%nat)); auto.
    - intros x x' Hx t Ht keep. apply filt_reversed; auto.
    - intros t Ht. lia.
  Qed.
End Api.

(** the mean of what a filter returns *)
Lemma filters_mean n Keep x y : (0 < n)%nat -> filters n Keep x y -> (Keep 0%nat -> bigsum n y = bigsum n x) /\ (~ Keep 0%nat -> bigsum n y = 0).
Proof.
  intros Hn H. destruct (H 0%nat Hn) as [A B].
  assert (Z0 : forall t, cos (turn n 0 t) = 1) by (intros; unfold turn; cbn [Nat.mul INR]; replace (2 * PI * 0 / INR n) with 0 by (unfold Rdiv; ring); apply cos_0).
  assert (E : forall v, spec_re n v 0 = bigsum n v) by (intros; unfold spec_re; apply bigsum_ext; intros; rewrite Z0; ring).
  split; intros K; [destruct (A K) as [C _]|destruct (B K) as [C _]]; rewrite !E in C; exact C.
Qed.
Section Mean.
  Variables (s : arr fl) (F : list nat -> R) (f : R) (ta : Z) (ax : nat).
  Hypothesis Hs : sampled s F f ta ax.
  Let n := nth ax (shp s) 0%nat.
  Let w := width f (nth 0%nat (shp s) 0%nat).
  Lemma c125_mean_low cl : 0 <= cl -> exists r G,
    fourier_low_pass (VNd s) (Fin f) (Fin cl) ta = Ok (VNd r) /\ shp r = shp s /\ holds r G /\
    forall i, inb (shp s) i -> (w <= cl -> bigsum n (column G i ax) = bigsum n (column F i ax)) /\ (cl < w -> bigsum n (column G i ax) = 0).
  Proof using Hs.
    intros Hc. destruct (low_pass_spec s F f ta ax Hs cl Hc) as (r & G & E & S & H & K). exists r, G. do 3 (split; [auto|]).
    intros i Hi. destruct (filters_mean _ _ _ _ (sm_len _ _ _ _ _ Hs) (K i Hi)) as [A B]. unfold cycles in A, B. cbn [Nat.min INR] in A, B. fold w in A, B.
    split; intros X; [apply A|apply B]; lra.
  Qed.
  Lemma c125_mean_high ch : 0 <= ch -> exists r G,
    fourier_high_pass (VNd s) (Fin f) (Fin ch) ta = Ok (VNd r) /\ shp r = shp s /\ holds r G /\
    forall i, inb (shp s) i -> (ch = 0 -> bigsum n (column G i ax) = bigsum n (column F i ax)) /\ (0 < ch -> bigsum n (column G i ax) = 0).
  Proof using Hs.
    intros Hc. destruct (high_pass_spec s F f ta ax Hs ch Hc) as (r & G & E & S & H & K). exists r, G. do 3 (split; [auto|]).
    intros i Hi. destruct (filters_mean _ _ _ _ (sm_len _ _ _ _ _ Hs) (K i Hi)) as [A B]. unfold cycles in A, B. cbn [Nat.min INR] in A, B. fold w in A, B.
    split; intros X; [apply A|apply B]; lra.
  Qed.
End Mean.
