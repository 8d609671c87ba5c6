(** The Fourier filters at API level. *)
From Coq Require Import Reals List Arith ZArith Lia Lra Bool String Classical.
From Verif Require Import PyBase Num Arr ArrFacts NumFacts PyFacts ListFacts ChunkFacts Hybrid Spherical Fourier SpecSum SumFacts SpecFourier FourierDft FourierFacts.
Import ListNotations.
Local Open Scope R_scope.

Lemma angle_fin n k t : (0 < n)%nat -> angle (T := fl) n k t = Fin (turn n k t).
Proof.
  intros Hn. unfold angle, turn. flsimpl. change (@ndiv fl NumFl) with fl_div. rewrite <- INR_IZR_INZ.
  assert (INR n <> 0) by (apply not_0_INR; lia). rewrite <- !INR_IZR_INZ. rewrite fdiv_fin by auto. reflexivity.
Qed.
Lemma fft_bin_fin n (x : nat -> fl) X k : (0 < n)%nat -> (forall t, (t < n)%nat -> x t = Fin (X t)) ->
  fft_bin n x k = (Fin (spec_re n X k), Fin (spec_im n X k)).
Proof.
  intros Hn H. unfold fft_bin, spec_re, spec_im. apply f_equal2.
  - rewrite (map_ext_in _ (fun t => Fin (X t * cos (turn n k t)))).
    + rewrite <- (map_map (fun t => X t * cos (turn n k t)) Fin), nsum_fin, rsum_seq0. reflexivity.
    + intros t Ht. apply in_seq in Ht. rewrite H by lia. rewrite angle_fin by auto. reflexivity.
  - rewrite (map_ext_in _ (fun t => Fin (- (X t * sin (turn n k t))))).
    + rewrite <- (map_map (fun t => - (X t * sin (turn n k t))) Fin), nsum_fin, rsum_seq0. reflexivity.
    + intros t Ht. apply in_seq in Ht. rewrite H by lia. rewrite angle_fin by auto. reflexivity.
Qed.
Lemma filter_column fl n l h (x : nat -> Num.fl) X t : (0 < n)%nat -> (0 <= l)%Z -> (0 <= h)%Z ->
  (forall t, (t < n)%nat -> x t = Fin (X t)) ->
  ifft_real n (apply_filters fl l h (fft n x)) t = Fin (filt n (kall fl (Z.to_nat l) (Z.to_nat h) n) X t).
Proof.
  intros Hn Hl Hh Hx. destruct (apply_masks l h (fft n x) Hl Hh fl) as [L M]. unfold fft in L, M. rewrite map_length, seq_length in L, M.
  unfold ifft_real, filt. assert (Hn' : INR n <> 0) by (apply not_0_INR; lia).
  rewrite (map_ext_in _ (fun k => Fin (b2r (kall fl (Z.to_nat l) (Z.to_nat h) n k) * (spec_re n X k * cos (turn n k t) - spec_im n X k * sin (turn n k t))))).
  - rewrite <- (map_map (fun k => b2r (kall fl (Z.to_nat l) (Z.to_nat h) n k) * (spec_re n X k * cos (turn n k t) - spec_im n X k * sin (turn n k t))) Fin), nsum_fin, rsum_seq0.
    change (@ndiv Num.fl NumFl) with fl_div. flsimpl. rewrite <- INR_IZR_INZ, fdiv_fin by auto. reflexivity.
  - intros k Hk. apply in_seq in Hk. unfold fft. rewrite M by lia. rewrite nth_map_seq, (fft_bin_fin n x X) by (auto; lia). rewrite angle_fin by auto.
    destruct (kall fl (Z.to_nat l) (Z.to_nat h) n k); unfold creal; cbn [b2r fst snd]; flsimpl; apply f_equal; ring.
Qed.

Lemma axis_pyidx r ta ax : axis_of r ta ax -> pyidx r ta = Some ax.
Proof.
  intros [H [-> | ->]]; [apply pyidx_nat; auto|]. unfold pyidx.
  destruct (Z.ltb_spec (Z.of_nat ax - Z.of_nat r) 0); [|lia].
  destruct (Z.leb_spec 0 (Z.of_nat ax - Z.of_nat r + Z.of_nat r)), (Z.ltb_spec (Z.of_nat ax - Z.of_nat r + Z.of_nat r) (Z.of_nat r)); cbn [andb]; try lia.
  f_equal. lia.
Qed.

(** index of a cutoff *)
Definition loi (f : R) (n0 : nat) (c : R) : nat := Z.to_nat (Rfloor (c / width f n0)).
Definition hii (f : R) (n0 : nat) (c : R) : nat := Z.to_nat (Rceil (c / width f n0)).

Lemma Rfloor_nonneg r : 0 <= r -> (0 <= Rfloor r)%Z.
Proof.
  intros H. destruct (base_Int_part r) as [H1 H2]. unfold Rfloor. assert (-1 < IZR (Int_part r)) by lra.
  change (-1) with (IZR (-1)) in H0. apply lt_IZR in H0. lia.
Qed.
Lemma Rceil_nonneg r : 0 <= r -> (0 <= Rceil r)%Z.
Proof.
  intros H. unfold Rceil. destruct (base_Int_part (- r)) as [H1 H2]. assert (IZR (Int_part (- r)) <= 0) by lra. apply le_IZR in H0. lia.
Qed.

Section Filter.
  Variables (s : arr fl) (F : list nat -> R) (f cl ch : R) (ta : Z) (ax : nat) (fl : flags).
  Hypothesis Hs : holds s F.
  Hypothesis Hax : axis_of (ndim s) ta ax.
  Hypothesis Hn0 : (0 < nth 0 (shp s) 0)%nat.
  Hypothesis Hn : (0 < nth ax (shp s) 0)%nat.
  Hypothesis Hf : 0 < f.
  Hypothesis Hcl : 0 <= cl.
  Hypothesis Hch : 0 <= ch.
  Notation n0 := (nth 0%nat (shp s) 0%nat).
  Notation n := (nth ax (shp s) 0%nat).
  Definition fmask : nat -> bool := kall fl (loi f n0 cl) (hii f n0 ch) n.
  Definition fout (i : list nat) : R := filt n fmask (column F i ax) (nth ax i 0%nat).

  Lemma width_pos : 0 < width f n0.
  Proof using Hf Hn0. unfold width. apply Rdiv_lt_0_compat; auto. apply lt_0_INR. auto. Qed.
  Lemma filter_arr_fin : exists r, filter_arr s (Fin f) (Fin cl) (Fin ch) ta fl = Ok r /\ shp r = shp s /\ holds r fout.
  Proof using Hs Hax Hn0 Hn Hf Hcl Hch.
    pose proof width_pos as Hw. pose proof Hw as Hw'. destruct Hax as [Hr _].
    assert (C1 : 0 <= cl / width f n0) by (unfold Rdiv; apply Rmult_le_pos; [auto|left; apply Rinv_0_lt_compat; auto]).
    assert (C2 : 0 <= ch / width f n0) by (unfold Rdiv; apply Rmult_le_pos; [auto|left; apply Rinv_0_lt_compat; auto]).
    unfold filter_arr. rewrite (axis_pyidx _ _ _ Hax). cbn [oget bind].
    destruct (shp s) as [|m sh] eqn:E; [cbn in Hn0; lia|]. change (nth 0 (m :: sh) 0%nat) with m in *.
    destruct (Nat.eqb_spec m 0); [lia|]. cbv beta iota zeta.
    assert (Es : hd 0%nat (shp (swapaxes ax 0 s)) = nth ax (m :: sh) 0%nat).
    { unfold swapaxes. cbn [shp]. rewrite E. apply swap0_hd. unfold ndim in Hr. rewrite E in Hr. auto. }
    rewrite Es. destruct (Nat.eqb_spec (nth ax (m :: sh) 0%nat) 0); [lia|].
    change (@ndiv Num.fl NumFl) with fl_div. cbn [ofZ NumFl]. rewrite <- INR_IZR_INZ.
    rewrite (fdiv_fin f (INR m)) by (apply not_0_INR; auto). fold (width f m).
    unfold neqb; cbn [NumFl fl_eq]. rewrite (reqb_false (width f m) 0) by lra.
    rewrite !fdiv_fin by lra. cbn [nfloor nceil NumFl fl_toZ to_int bind].
    eexists. split; [reflexivity|]. split.
    - unfold swapaxes. cbn [shp]. rewrite E. apply swap0_inv. unfold ndim in Hr. rewrite E in Hr. auto.
    - intros i Hi. unfold swapaxes in Hi. cbn [shp] in Hi. rewrite E in Hi. rewrite swap0_inv in Hi by (unfold ndim in Hr; rewrite E in Hr; auto).
      assert (Li : (ax < List.length i)%nat) by (rewrite (inb_length _ _ Hi); unfold ndim in Hr; rewrite E in Hr; auto).
      unfold swapaxes at 1. cbn [get]. rewrite (filter_column fl _ _ _ _ (column F i ax)).
      + unfold fout, fmask, loi, hii. rewrite E. cbn [nth]. rewrite swap0_hd by auto. reflexivity.
      + lia.
      + apply Rfloor_nonneg; auto.
      + apply Rceil_nonneg; auto.
      + intros t Ht. unfold swapaxes. cbn [get]. rewrite swap0_column by auto. apply Hs. rewrite E.
        rewrite <- (upd_self (m :: sh) ax). apply inb_upd; auto.
  Qed.

  Lemma fmask_sym : symmetric n fmask. Proof. apply kall_symmetric. Qed.
  Lemma column_upd G i a u t : column G (upd i a u) a t = column G i a t.
  Proof. unfold column. rewrite upd_upd. reflexivity. Qed.
  Lemma fout_column i t : inb (shp s) i -> column fout i ax t = filt n fmask (column F i ax) t.
  Proof using Hax.
    intros Hi. unfold column at 1. unfold fout. destruct Hax as [Hr _]. unfold ndim in Hr.
    rewrite nth_upd_same by (rewrite (inb_length _ _ Hi); auto). apply filt_ext; auto. intros u _. apply column_upd.
  Qed.
  Lemma spec_ext m x y k : (forall t, (t < m)%nat -> x t = y t) -> spec_re m x k = spec_re m y k /\ spec_im m x k = spec_im m y k.
  Proof. intros H. split; apply bigsum_ext; intros t Ht; rewrite H by auto; reflexivity. Qed.
  Lemma fout_filters i : inb (shp s) i -> filters n (fun k => fmask k = true) (column F i ax) (column fout i ax).
  Proof using Hax.
    intros Hi k Hk. unfold same_bin, no_bin.
    destruct (spec_ext n (column fout i ax) (filt n fmask (column F i ax)) k (fun t _ => fout_column i t Hi)) as [-> ->].
    destruct (filt_spec n fmask (column F i ax) k fmask_sym Hk) as [-> ->]. split; intros H.
    - rewrite H. cbn [b2r]. lra.
    - apply not_true_is_false in H. rewrite H. cbn [b2r]. lra.
  Qed.
End Filter.

Lemma filters_iff n (K K' : nat -> Prop) x y : (forall k, (k < n)%nat -> (K k <-> K' k)) -> filters n K x y -> filters n K' x y.
Proof. intros E H k Hk. destruct (H k Hk) as [H1 H2]. specialize (E k Hk). split; intros Q; [apply H1|apply H2]; tauto. Qed.

(** the masks in terms of frequencies *)
Lemma loi_lt f n0 c m : 0 < width f n0 -> 0 <= c -> ((m < loi f n0 c)%nat <-> (INR m + 1) * width f n0 <= c).
Proof.
  intros Hw Hc. unfold loi. set (r := c / width f n0).
  assert (Er : c = r * width f n0) by (unfold r; field; lra).
  destruct (base_Int_part r) as [H1 H2]. unfold Rfloor.
  split; intros H.
  - assert (Z.of_nat m + 1 <= Int_part r)%Z by lia. apply IZR_le in H0. rewrite plus_IZR, <- INR_IZR_INZ in H0.
    rewrite Er. apply Rmult_le_compat_r; lra.
  - rewrite Er in H. apply Rmult_le_reg_r in H; auto.
    assert (Z.of_nat m < Int_part r)%Z; [|lia]. apply lt_IZR. rewrite <- INR_IZR_INZ.
    lra.
Qed.
Lemma hii_le f n0 c m : 0 < width f n0 -> 0 <= c -> ((hii f n0 c <= m)%nat <-> c <= INR m * width f n0).
Proof.
  intros Hw Hc. unfold hii. set (r := c / width f n0).
  assert (Er : c = r * width f n0) by (unfold r; field; lra).
  destruct (base_Int_part (- r)) as [H1 H2]. unfold Rceil.
  split; intros H.
  - assert (- Int_part (- r) <= Z.of_nat m)%Z by lia. apply IZR_le in H0. rewrite opp_IZR, <- INR_IZR_INZ in H0.
    rewrite Er. apply Rmult_le_compat_r; lra.
  - rewrite Er in H. apply Rmult_le_reg_r in H; auto.
    assert (- Int_part (- r) < Z.of_nat m + 1)%Z; [|lia]. apply lt_IZR. rewrite plus_IZR, opp_IZR, <- INR_IZR_INZ. lra.
Qed.
